(** C46 axes of a coordinate system, C47 byte ranges over HTTP. *)
From Coq Require Import NArith ZArith String List Bool Lia.
From Coq Require Import ZifyBool ZifyNat ZifyN.
From Verif Require Import Base StdMap AxesModel AxesProofs.
Import ListNotations.

(** * C46 *)

(** after any history: at most one axis per name, whether main or auxiliary *)
Theorem C46_unique_names : forall l, NoDup (map a_name (get_axes (cs_run l))).
Proof. intro l. apply (good_run l). Qed.

(** and at most one main axis per type, apart from Undefined *)
Theorem C46_unique_types : forall l a b, In a (cs_main (cs_run l)) -> In b (cs_main (cs_run l)) ->
  a_type a = a_type b -> a_type a <> Undefined -> a = b.
Proof. intro l. apply (good_run l). Qed.

(** looking up a type: a main axis if there is one, else the first auxiliary one, else nothing *)
Theorem C46_find_main_first : forall cs t,
  match find_axis cs t with
  | Some a => a_type a = t /\
              (In a (cs_main cs) \/ In a (cs_aux cs) /\ (forall b, In b (cs_main cs) -> a_type b <> t))
  | None => forall b, In b (get_axes cs) -> a_type b <> t
  end.
Proof.
  intros cs t. unfold find_axis, get_axes. destruct (find_type t (cs_main cs)) as [ a | ] eqn:F.
  - apply find_type_some in F. tauto.
  - rewrite find_type_none in F. destruct (find_type t (cs_aux cs)) as [ a | ] eqn:G.
    + apply find_type_some in G. tauto.
    + rewrite find_type_none in G. intros b I. apply in_app_or in I. destruct I; auto.
Qed.

(** the first axis of that type in the order of getAxes *)
Theorem C46_find_first : forall cs t a, find_axis cs t = Some a ->
  exists before after, get_axes cs = before ++ a :: after /\ forall b, In b before -> a_type b <> t.
Proof.
  assert (L : forall t l a, find_type t l = Some a ->
            exists p q, l = p ++ a :: q /\ forall b, In b p -> a_type b <> t).
  { intros t l a. unfold find_type. induction l as [ | x l IH ]; cbn; [ discriminate | ].
    destruct (type_eqb t (a_type x)) eqn:E; intro H.
    - injection H as ->. exists [], l. split; [ reflexivity | intros b [] ].
    - apply IH in H. destruct H as (p & q & -> & N). exists (x :: p), q. split; [ reflexivity | ].
      intros b [ <- | I ]; [ | now apply N ]. intro X. apply not_true_iff_false in E. apply E.
      apply type_eqb_spec. now symmetry. }
  intros cs t a. unfold find_axis, get_axes. destruct (find_type t (cs_main cs)) as [ x | ] eqn:F; intro H.
  - injection H as ->. apply L in F. destruct F as (p & q & -> & N). exists p, (q ++ cs_aux cs).
    split; [ now rewrite <- app_assoc | exact N ].
  - rewrite find_type_none in F. apply L in H. destruct H as (p & q & -> & N).
    exists (cs_main cs ++ p), q. split; [ now rewrite <- app_assoc | ].
    intros b I. apply in_app_or in I. destruct I; auto.
Qed.

Theorem C46_has_type : forall cs t, has_axis_type cs t = true <-> exists a, In a (get_axes cs) /\ a_type a = t.
Proof.
  intros cs t. unfold has_axis_type, get_axes. rewrite orb_true_iff, !has_type_spec. split.
  - intros [ (a & I & E) | (a & I & E) ]; exists a; (split; [ apply in_or_app; auto | exact E ]).
  - intros (a & I & E). apply in_app_or in I. destruct I; [ left | right ]; now exists a.
Qed.

(** of several types, the first that is present decides *)
Theorem C46_find_any : forall cs l,
  match find_axis_any cs l with
  | Some a => exists before t after, l = before ++ t :: after /\ find_axis cs t = Some a /\
              forall t', In t' before -> has_axis_type cs t' = false
  | None => forall t, In t l -> has_axis_type cs t = false
  end.
Proof.
  assert (H0 : forall cs t, find_axis cs t = None -> has_axis_type cs t = false).
  { intros cs t H. apply not_true_iff_false. rewrite C46_has_type. intros (a & I & E).
    assert (X := C46_find_main_first cs t). rewrite H in X. now apply (X a). }
  intros cs. induction l as [ | t l IH ]; cbn; [ intros t [] | ].
  destruct (find_axis cs t) as [ a | ] eqn:F.
  - exists [], t, l. repeat split; auto. intros t' [].
  - destruct (find_axis_any cs l) as [ a | ].
    + destruct IH as (p & u & q & -> & A & B). exists (t :: p), u, q. repeat split; auto.
      intros t' [ <- | I ]; auto.
    + intros t' [ <- | I ]; auto.
Qed.

(** setAxis: throws exactly when a main axis of another name has the type *)
Theorem C46_set_axis_throws : forall cs a,
  snd (set_axis cs a) = true <->
  a_type a <> Undefined /\ exists b, In b (cs_main cs) /\ a_name b <> a_name a /\ a_type b = a_type a.
Proof.
  intros cs a. unfold set_axis.
  destruct (negb (type_eqb (a_type a) Undefined) && has_type (a_type a) (remove_axis (a_name a) (cs_main cs))) eqn:B; cbn [snd].
  - split; [ intros _ | reflexivity ]. apply andb_true_iff in B. destruct B as [ B1 B2 ]. split.
    + intro E. apply type_eqb_spec in E. rewrite E in B1. discriminate.
    + apply has_type_spec in B2. destruct B2 as (b & I & E). apply in_remove in I. exists b. tauto.
  - split; [ discriminate | ]. intros [ U (b & I & N & E) ]. exfalso. apply andb_false_iff in B. destruct B as [ B | B ].
    + apply negb_false_iff, type_eqb_spec in B. contradiction.
    + apply not_true_iff_false in B. apply B. apply has_type_spec. exists b. split; [ apply in_remove; auto | exact E ].
Qed.

(** otherwise the axis is a main axis, replaces any axis of its name, and the others are untouched *)
Theorem C46_set_axis : forall cs a, snd (set_axis cs a) = false ->
  let cs' := fst (set_axis cs a) in
  In a (cs_main cs') /\
  (forall b, In b (cs_main cs') <-> b = a \/ In b (cs_main cs) /\ a_name b <> a_name a) /\
  (forall b, In b (cs_aux cs') <-> In b (cs_aux cs) /\ a_name b <> a_name a).
Proof.
  intros cs a. unfold set_axis.
  destruct (negb (type_eqb (a_type a) Undefined) && has_type (a_type a) (remove_axis (a_name a) (cs_main cs))); cbn [fst snd]; [ discriminate | ].
  intros _. cbn [cs_main cs_aux]. repeat split.
  - apply in_or_app. right. now left.
  - intro I. apply in_app_or in I. destruct I as [ I | [ <- | [] ] ]; [ right; now apply in_remove in I | now left ].
  - intros [ -> | I ]; apply in_or_app; [ right; now left | left; now apply in_remove ].
  - apply in_remove in H. tauto.
  - apply in_remove in H. tauto.
  - intro H. now apply in_remove.
Qed.

(** a rejected axis: the main axis that had its name is gone, nothing else changes *)
Theorem C46_set_axis_rejected : forall cs a, snd (set_axis cs a) = true ->
  let cs' := fst (set_axis cs a) in
  cs_aux cs' = cs_aux cs /\ (forall b, In b (cs_main cs') <-> In b (cs_main cs) /\ a_name b <> a_name a).
Proof.
  intros cs a. unfold set_axis.
  destruct (negb (type_eqb (a_type a) Undefined) && has_type (a_type a) (remove_axis (a_name a) (cs_main cs))); cbn [fst snd]; [ | discriminate ].
  intros _. cbn [cs_main cs_aux]. split; [ reflexivity | ]. intro b. apply in_remove.
Qed.

Theorem C46_rejected_loses_axis_refuted : exists l a b,
  snd (set_axis (cs_run l) a) = true /\ In b (get_axes (cs_run l)) /\
  ~ In b (get_axes (fst (set_axis (cs_run l) a))) /\ ~ In a (get_axes (fst (set_axis (cs_run l) a))).
Proof.
  exists [SetAxis (mkAxis "x" GeoX 0); SetAxis (mkAxis "y" GeoY 1)], (mkAxis "y" GeoX 2), (mkAxis "y" GeoY 1).
  repeat split; cbn; [ now right; left | | ]; intros [ H | [] ]; discriminate.
Qed.

(** setAuxiliaryAxis is ignored exactly when the name or the type belongs to a main axis; else the axis
    is an auxiliary axis and replaces one of its name *)
Theorem C46_set_aux : forall cs a,
  let taken := (exists b, In b (cs_main cs) /\ (a_name b = a_name a \/ a_type b = a_type a /\ a_type a <> Undefined)) in
  cs_main (set_aux cs a) = cs_main cs /\
  (taken -> set_aux cs a = cs) /\
  (~ taken -> forall b, In b (cs_aux (set_aux cs a)) <-> b = a \/ In b (cs_aux cs) /\ a_name b <> a_name a).
Proof.
  intros cs a taken. unfold set_aux.
  destruct (find (fun b => String.eqb (a_name b) (a_name a)) (cs_main cs)) as [ c | ] eqn:F.
  - split; [ reflexivity | ]. split; [ reflexivity | ]. intro N. exfalso. apply N.
    apply find_some in F. destruct F as [ I E ]. apply String.eqb_eq in E. exists c. auto.
  - apply find_name_none in F.
    destruct (negb (type_eqb (a_type a) Undefined) && has_type (a_type a) (cs_main cs)) eqn:B.
    + split; [ reflexivity | ]. split; [ reflexivity | ]. intro N. exfalso. apply N.
      apply andb_true_iff in B. destruct B as [ B1 B2 ]. apply has_type_spec in B2. destruct B2 as (b & I & E).
      exists b. split; [ exact I | right; split; [ exact E | ] ]. intro U. apply type_eqb_spec in U. rewrite U in B1. discriminate.
    + cbn [cs_main cs_aux]. split; [ reflexivity | ]. split.
      * intros (b & I & [ E | [ E U ] ]); exfalso.
        -- apply F. rewrite <- E. now apply in_map.
        -- apply andb_false_iff in B. destruct B as [ B | B ].
           ++ apply negb_false_iff, type_eqb_spec in B. contradiction.
           ++ apply not_true_iff_false in B. apply B. apply has_type_spec. now exists b.
      * intros _ b. split.
        -- intro I. apply in_app_or in I. destruct I as [ I | [ <- | [] ] ]; [ right; now apply in_remove in I | now left ].
        -- intros [ -> | I ]; apply in_or_app; [ right; now left | left; now apply in_remove ].
Qed.

(** an axis typed as x coordinate wins over a longitude, even when it is only auxiliary *)
Theorem C46_geo_x : forall cs,
  (has_axis_type cs GeoX = true -> geo_x cs = find_axis cs GeoX) /\
  (has_axis_type cs GeoX = false -> geo_x cs = find_axis cs Lon).
Proof.
  intro cs. unfold geo_x, find_axis_any.
  assert (X := C46_find_main_first cs GeoX). assert (Y := C46_has_type cs GeoX).
  destruct (find_axis cs GeoX) as [ a | ] eqn:F.
  - split; [ reflexivity | ]. intro H. exfalso. rewrite H in Y. destruct Y as [ _ Y ].
    assert (false = true) as Z by (apply Y; exists a; unfold get_axes; destruct X as [ E [ I | [ I _ ] ] ];
                                     (split; [ apply in_or_app; auto | exact E ])). discriminate Z.
  - split.
    + intro H. apply Y in H. destruct H as (a & I & E). now apply X in I.
    + intros _. destruct (find_axis cs Lon); reflexivity.
Qed.

(** the vertical axis: absent exactly when no axis has a vertical type; the types in order of preference *)
Theorem C46_geo_z : forall cs,
  (match geo_z cs with
   | Some a => In (a_type a) [GeoZ; Height; Depth; Pressure] /\ In a (get_axes cs)
   | None => forall b, In b (get_axes cs) -> ~ In (a_type b) [GeoZ; Height; Depth; Pressure]
   end) /\
  (has_axis_type cs GeoZ = true -> geo_z cs = find_axis cs GeoZ) /\
  (has_axis_type cs GeoZ = false -> has_axis_type cs Height = true -> geo_z cs = find_axis cs Height) /\
  (has_axis_type cs GeoZ = false -> has_axis_type cs Height = false -> has_axis_type cs Depth = true ->
     geo_z cs = find_axis cs Depth) /\
  (has_axis_type cs GeoZ = false -> has_axis_type cs Height = false -> has_axis_type cs Depth = false ->
     geo_z cs = find_axis cs Pressure).
Proof.
  intro cs.
  assert (FH : forall t, has_axis_type cs t = match find_axis cs t with Some _ => true | None => false end).
  { intro t. unfold has_axis_type, find_axis, has_type.
    destruct (find_type t (cs_main cs)); [ reflexivity | ]. now destruct (find_type t (cs_aux cs)). }
  assert (FI : forall t a, find_axis cs t = Some a -> In a (get_axes cs) /\ a_type a = t).
  { intros t a H. assert (X := C46_find_main_first cs t). rewrite H in X. unfold get_axes.
    destruct X as [ E [ I | [ I _ ] ] ]; (split; [ apply in_or_app; auto | exact E ]). }
  rewrite !FH. unfold geo_z. cbn [find_axis_any].
  assert (N : forall t, find_axis cs t = None -> forall b, In b (get_axes cs) -> a_type b <> t).
  { intros t H. assert (X := C46_find_main_first cs t). now rewrite H in X. }
  destruct (find_axis cs GeoZ) as [ a | ] eqn:E1.
  { apply FI in E1. destruct E1 as [ I T ]. split; [ split; [ rewrite T; cbn; tauto | exact I ] | ].
    repeat (apply conj); intros; (discriminate || reflexivity). }
  destruct (find_axis cs Height) as [ a | ] eqn:E2.
  { apply FI in E2. destruct E2 as [ I T ]. split; [ split; [ rewrite T; cbn; tauto | exact I ] | ].
    repeat (apply conj); intros; (discriminate || reflexivity). }
  destruct (find_axis cs Depth) as [ a | ] eqn:E3.
  { apply FI in E3. destruct E3 as [ I T ]. split; [ split; [ rewrite T; cbn; tauto | exact I ] | ].
    repeat (apply conj); intros; (discriminate || reflexivity). }
  destruct (find_axis cs Pressure) as [ a | ] eqn:E4.
  { apply FI in E4. destruct E4 as [ I T ]. split; [ split; [ rewrite T; cbn; tauto | exact I ] | ].
    repeat (apply conj); intros; (discriminate || reflexivity). }
  split; [ | repeat (apply conj); intros; (discriminate || reflexivity) ].
  intros b I [ H | [ H | [ H | [ H | [] ] ] ] ]; symmetry in H; revert H; now apply N.
Qed.

(** the identification of the horizontal axes: names without commas can be read back *)
Theorem C46_horizontal_id : forall cs x y, geo_x cs = Some x -> geo_y cs = Some y ->
  horizontal_id cs = (a_name x ++ "," ++ a_name y)%string.
Proof. intros cs x y X Y. unfold horizontal_id. now rewrite X, Y. Qed.

Example C46_nonvacuous :
  let cs := cs_run [SetAux (mkAxis "lon" Lon 1); SetAxis (mkAxis "x" GeoX 2); SetAxis (mkAxis "lon2" Lon 3);
                    SetAxis (mkAxis "x" GeoX 4); SetAux (mkAxis "x2" GeoX 5)] in
  cs_main cs = [mkAxis "lon2" Lon 3; mkAxis "x" GeoX 4] /\ cs_aux cs = [mkAxis "lon" Lon 1] /\
  find_axis cs Lon = Some (mkAxis "lon2" Lon 3) /\ horizontal_id cs = "x"%string.
Proof. repeat split; reflexivity. Qed.

(** * C47 *)
Local Open Scope N_scope.

Lemma skipn_skipn' : forall (l : list N) i j, skipn i (skipn j l) = skipn (j + i) l.
Proof.
  induction l as [ | x l IHl ]; intros i j; [ now rewrite !skipn_nil | ]. destruct j; [ reflexivity | ].
  cbn [skipn Nat.add]. apply IHl.
Qed.

Lemma splice_twice : forall (A c R mem : list N) k, length A = k ->
  firstn (k + length c) (A ++ c ++ skipn (k + length c) mem) ++ R ++
  skipn (k + length c + length R) (A ++ c ++ skipn (k + length c) mem) =
  A ++ (c ++ R) ++ skipn (k + (length c + length R)) mem.
Proof.
  intros A c R mem k <-. rewrite (app_assoc A c). set (p := A ++ c).
  assert (E : (length A + length c)%nat = length p) by (unfold p; now rewrite app_length).
  rewrite E. rewrite firstn_app, Nat.sub_diag, firstn_O, app_nil_r, firstn_all.
  rewrite skipn_app, (skipn_all2 p) by lia. cbn [app].
  replace (length p + length R - length p)%nat with (length R) by lia. rewrite skipn_skipn'.
  rewrite Nat.add_assoc, E. unfold p. now rewrite <- !app_assoc.
Qed.

Lemma perform_spec : forall chunks mem pos cap, pos <= cap -> cap <= N.of_nat (length mem) ->
  Forall (fun c => cap + N.of_nat (length c) < M64) chunks ->
  perform chunks (mkWb mem pos cap) =
  if pos + N.of_nat (length (concat chunks)) <=? cap
  then Ok (mkWb (firstn (N.to_nat pos) mem ++ concat chunks ++ skipn (N.to_nat pos + length (concat chunks)) mem)
                (pos + N.of_nat (length (concat chunks))) cap)
  else Throw.
Proof.
  induction chunks as [ | c r IH ]; intros mem pos cap H1 H2 F; cbn [perform concat].
  - destruct (N.leb_spec (pos + N.of_nat (@length N [])) cap); [ | cbn in *; lia ].
    cbn [length app]. rewrite Nat.add_0_r, firstn_skipn. now rewrite N.add_0_r.
  - inversion F; subst. rewrite callback_fits by lia. rewrite app_length.
    destruct (N.ltb_spec cap (pos + N.of_nat (length c))) as [ L | L ]; cbn [obind].
    + destruct (N.eqb_spec 0 (N.of_nat (length c))); [ lia | ].
      destruct (N.leb_spec (pos + N.of_nat (length c + length (concat r))) cap); [ lia | reflexivity ].
    + rewrite N.eqb_refl. rewrite IH.
      2: lia.
      2:{ rewrite !app_length, firstn_length, skipn_length. lia. }
      2: assumption.
      replace (pos + N.of_nat (length c) + N.of_nat (length (concat r))) with
              (pos + N.of_nat (length c + length (concat r))) by lia.
      destruct (N.leb_spec (pos + N.of_nat (length c + length (concat r))) cap); [ | reflexivity ].
      f_equal. f_equal.
      replace (N.to_nat (pos + N.of_nat (length c))) with (N.to_nat pos + length c)%nat by lia.
      assert (LA : length (firstn (N.to_nat pos) mem) = N.to_nat pos) by (rewrite firstn_length; lia).
      rewrite splice_twice by assumption. reflexivity.
Qed.

(** whatever chunks arrive: only the requested bytes are written, and if all chunks are accepted these
    hold the chunks in order *)
Theorem C47_read : forall size_ respond off count buffer,
  off + count <= size_ -> size_ < M64 -> count <= N.of_nat (length buffer) ->
  let chunks := respond off (sub64 (off + count) 1) in
  Forall (fun c => count + N.of_nat (length c) < M64) chunks ->
  http_read size_ respond off count buffer =
  if N.of_nat (length (concat chunks)) <=? count
  then Ok (concat chunks ++ skipn (length (concat chunks)) buffer) else Throw.
Proof.
  intros size_ respond off count buffer H1 H2 H3 chunks F. unfold http_read.
  rewrite add64_small by lia. destruct (N.ltb_spec size_ (off + count)); [ lia | ].
  fold chunks. rewrite perform_spec by (auto; lia). rewrite N.add_0_l.
  destruct (N.leb_spec (N.of_nat (length (concat chunks))) count); reflexivity.
Qed.

(** memory behind the requested bytes is never changed, and nothing is undefined *)
Theorem C47_stays_in_buffer : forall size_ respond off count buffer r,
  off + count <= size_ -> size_ < M64 -> count <= N.of_nat (length buffer) ->
  Forall (fun c => count + N.of_nat (length c) < M64) (respond off (sub64 (off + count) 1)) ->
  http_read size_ respond off count buffer = Ok r ->
  length r = length buffer /\ skipn (N.to_nat count) r = skipn (N.to_nat count) buffer.
Proof.
  intros size_ respond off count buffer r H1 H2 H3 F H. rewrite C47_read in H by assumption.
  revert H. set (b := concat _). destruct (N.leb_spec (N.of_nat (length b)) count) as [ L | L ]; [ | discriminate ].
  intro H. injection H as <-. split.
  - rewrite app_length, skipn_length. lia.
  - rewrite skipn_app, (skipn_all2 b) by lia. cbn [app].
    rewrite skipn_skipn'. f_equal. lia.
Qed.

(** the first chunk that does not fit ends the transfer without any of it being written *)
Theorem C47_overlong_chunk : forall c mem pos cap, pos <= cap -> cap <= N.of_nat (length mem) ->
  cap + N.of_nat (length c) < M64 -> cap < pos + N.of_nat (length c) ->
  write_callback c 1 (N.of_nat (length c)) (mkWb mem pos cap) = Ok (mkWb mem pos cap, 0) /\
  N.of_nat (length c) <> 0.
Proof.
  intros c mem pos cap H1 H2 H3 H4. rewrite callback_fits by lia.
  destruct (N.ltb_spec cap (pos + N.of_nat (length c))); [ | lia ]. split; [ reflexivity | lia ].
Qed.

(** a body of exactly the requested length fills the buffer *)
Theorem C47_complete_body : forall size_ respond off count buffer,
  off + count <= size_ -> size_ < M64 -> length buffer = N.to_nat count ->
  Forall (fun c => count + N.of_nat (length c) < M64) (respond off (sub64 (off + count) 1)) ->
  length (concat (respond off (sub64 (off + count) 1))) = N.to_nat count ->
  http_read size_ respond off count buffer = Ok (concat (respond off (sub64 (off + count) 1))).
Proof.
  intros size_ respond off count buffer H1 H2 H3 F L. rewrite C47_read by (auto; lia).
  destruct (N.leb_spec (N.of_nat (length (concat (respond off (sub64 (off + count) 1))))) count); [ | lia ].
  rewrite skipn_all2 by lia. now rewrite app_nil_r.
Qed.

(** requests that end behind the resource are refused *)
Theorem C47_past_end : forall size_ respond off count buffer, off + count < M64 -> size_ < off + count ->
  http_read size_ respond off count buffer = Throw.
Proof.
  intros. unfold http_read. rewrite add64_small by assumption. destruct (N.ltb_spec size_ (off + count)); [ reflexivity | lia ].
Qed.

(** a body that is too short is accepted: the buffer keeps what it held before *)
Theorem C47_short_body_refuted : exists size_ respond off count buffer,
  off + count <= size_ /\ length buffer = N.to_nat count /\
  http_read size_ respond off count buffer = Ok (concat (respond off (off + count - 1)) ++ [99]) /\
  length (concat (respond off (off + count - 1))) <> N.to_nat count.
Proof.
  exists 10, (fun _ _ => [[1]; [2]]), 0, 3, [97; 98; 99]. repeat split; try reflexivity; try discriminate; lia.
Qed.

(** an offset and length whose sum wraps is not refused *)
Theorem C47_wrapped_range_refuted : exists size_ respond off count buffer r,
  size_ < off /\ http_read size_ respond off count buffer = Ok r.
Proof.
  exists 10, (fun _ _ => []), (2 ^ 64 - 1), 2, [0; 0], [0; 0]. split; reflexivity.
Qed.

Example C47_nonvacuous :
  let respond := fun (_ _ : N) => [[1; 2]; []; [3]] in
  http_read 100 respond 7 3 [0; 0; 0; 77] = Ok [1; 2; 3; 77] /\ http_read 100 respond 7 2 [0; 0; 0; 77] = Throw /\
  Forall (fun c => 3 + N.of_nat (length c) < M64) (respond 7 9).
Proof. repeat split; repeat constructor. Qed.

Print Assumptions C46_unique_names.
Print Assumptions C46_unique_types.
Print Assumptions C46_find_main_first.
Print Assumptions C46_find_first.
Print Assumptions C46_has_type.
Print Assumptions C46_find_any.
Print Assumptions C46_set_axis_throws.
Print Assumptions C46_set_axis.
Print Assumptions C46_set_axis_rejected.
Print Assumptions C46_rejected_loses_axis_refuted.
Print Assumptions C46_set_aux.
Print Assumptions C46_geo_x.
Print Assumptions C46_geo_z.
Print Assumptions C46_horizontal_id.
Print Assumptions C47_read.
Print Assumptions C47_stays_in_buffer.
Print Assumptions C47_overlong_chunk.
Print Assumptions C47_complete_body.
Print Assumptions C47_past_end.
Print Assumptions C47_short_body_refuted.
Print Assumptions C47_wrapped_range_refuted.
