(** C100: concrete interpolated files and findings. *)
From Coq Require Import NArith ZArith QArith Qcanon Ascii String List Bool Arith Lia.
From Verif Require Import Base StdMap RegridModel RegridProofs StringModel ConvertModel IndexSpec SliceModel SliceProofs VecModel IreadModel IreadProofs IreadProps IreadCaseProps.
Import ListNotations.
Local Open Scope string_scope.
Local Open Scope list_scope.
Local Open Scope nat_scope.

Definition vz (z : Z) : value := Some (Q2Qc (inject_Z z)).
(** turning by a quarter: (u, v) becomes (-v, u) *)
Definition quarter : turning := fun a b => Ok (map (fun v => match v with Some q => Some (- q)%Qc | None => None end) b, a).
Lemma quarter_layers m : pairs_by_layers m quarter.
Proof.
  unfold quarter. split.
  - intros ls _ _ a b. split.
    + intro E. injection E as <- <-. exists (map (fun l => (map (fun v => match v with Some q => Some (- q)%Qc | None => None end) (snd l), fst l)) ls).
      split; [induction ls; cbn; constructor; auto|]. rewrite !map_map. cbn. split; [now rewrite concat_map, map_map|reflexivity].
    + intros (outs & O & -> & ->). f_equal. f_equal.
      * rewrite concat_map, map_map. f_equal. induction O as [|l o ls os E O IH]; [reflexivity|]. cbn. injection E as <-. cbn. f_equal. exact IH.
      * f_equal. induction O as [|l o ls os E O IH]; [reflexivity|]. cbn. injection E as <-. cbn. f_equal. exact IH.
  - intros u v a b Lu Lv E. injection E as <- <-. now rewrite map_length.
Qed.

(** a file with the components of the wind on 3 columns, 2 rows and 2 levels, interpolated to the 2 * 2 points [pts];
    the last one is outside *)
Definition pts : list (Q * Q) := [(2, 0); (0, 1); (1, 1); (7, 0)]%Q.
Definition grid : cached := nearest_grid 0 "x" "y" 3 2 2 2 pts.
Definition su : stored := mkStored DFloat (vz (-9)) [("x", 3%N); ("y", 2%N); ("level", 2%N)] (map vz [1; 2; 3; 4; 5; 6; 7; 8; -9; 10; 11; 12]%Z).
Definition sv : stored := mkStored DFloat (vz (-9)) [("x", 3%N); ("y", 2%N); ("level", 2%N)] (map vz [21; 22; 23; 24; 25; 26; 27; 28; 29; 30; 31; 32]%Z).
Definition wind (vec : vectors) : interp := mkInterp [("u", su); ("v", sv)] [] [("u", "x,y"); ("v", "x,y")] [("x,y", grid)] [("x,y", quarter)] vec [] [].
Definition both : vectors := [("u", ("v", DX)); ("v", ("u", DY))].
Definition names3 := ["x"; "y"; "level"].

Lemma wind_regular v s pt vec : (v = "u" /\ s = su \/ v = "v" /\ s = sv) ->
  match pt with
  | None => partner (wind vec) v "x,y" = None
  | Some (is_x, s', t) => (exists c, partner (wind vec) v "x,y" = Some (is_x, c, t) /\ sfind c (i_reader (wind vec)) = Some s') /\ (s' = su \/ s' = sv) /\ t = quarter
  end -> regular (wind vec) v "x,y" grid s pt 3 2 2 2 0 0 3 2 ["level"] [2].
Proof.
  intros V PT. assert (forall s0, s0 = su \/ s0 = sv -> on_axes grid s0 3 2 ["level"] [2]) as OA.
  { intros s0 [->| ->]; (split; [reflexivity|split; [reflexivity|vm_compute; reflexivity]]). }
  split; [destruct V as [(-> & ->)|(-> & ->)]; reflexivity|]. split; [destruct V as [(-> & ->)|(-> & ->)]; reflexivity|]. split; [destruct V as [(-> & ->)|(-> & ->)]; reflexivity|]. split; [reflexivity|].
  split.
  { destruct pt as [[[x s'] t]|]; [|exact PT]. destruct PT as (A & B & ->). split; [exact A|]. split; [now apply OA|]. apply quarter_layers. }
  split; [apply OA; destruct V as [(-> & ->)|(-> & ->)]; auto|]. split; [vm_compute; repeat split; lia|]. split; [reflexivity|].
  split; [repeat constructor; cbn; intuition discriminate|]. split; [intros d I; cbn in I; intuition subst; vm_compute; reflexivity|]. split; [reflexivity|]. split; [reflexivity|]. split; [lia|]. split; [lia|].
  split; [intros d I; cbn in I; intuition subst; vm_compute; reflexivity|]. split; [vm_compute; reflexivity|].
  split; [|split; intros p []].
  assert (Forall RegridProofs.int_range pts) as IR by (repeat constructor; vm_compute; discriminate || reflexivity).
  exact (C100_nearest_layers 0 "x" "y" 3 2 2 2 pts ltac:(lia) ltac:(lia) ltac:(vm_compute; reflexivity) IR eq_refl).
Qed.

Definition zs_of (o : outcome (list value)) : option (list (option Z)) :=
  match o with Ok l => Some (map (option_map (fun q : Qc => Qround.Qfloor (this q))) l) | _ => None end.

(** the components, unturned and turned, whole and one row of the upper level *)
Example C100_nonvacuous :
  regular (wind []) "u" "x,y" grid su None 3 2 2 2 0 0 3 2 ["level"] [2] /\
  regular (wind both) "u" "x,y" grid su (Some (true, sv, quarter)) 3 2 2 2 0 0 3 2 ["level"] [2] /\
  regular (wind both) "v" "x,y" grid sv (Some (false, su, quarter)) 3 2 2 2 0 0 3 2 ["level"] [2] /\
  zs_of (read (wind []) "u" (req names3 [2; 2; 2] [0; 0; 0] [2; 2; 2])) = Some (map Some [3; 4; 5; -9; -9; 10; 11; -9]%Z) /\
  zs_of (read (wind []) "u" (req names3 [2; 2; 2] [0; 1; 1] [2; 1; 1])) = Some (map Some [11; -9]%Z) /\
  zs_of (read (wind both) "u" (req names3 [2; 2; 2] [0; 0; 0] [2; 2; 2])) = Some (map Some [-23; -24; -25; -9; -29; -30; -31; -9]%Z) /\
  zs_of (read (wind both) "v" (req names3 [2; 2; 2] [0; 0; 0] [2; 2; 2])) = Some (map Some [3; 4; 5; -9; -9; 10; 11; -9]%Z) /\
  zs_of (record (wind both) "u" (with_lengths names3 [2; 2; 2]) (Some "level") 1) = Some (map Some [-29; -30; -31; -9]%Z).
Proof.
  split; [apply wind_regular; [auto|reflexivity]|].
  split; [apply wind_regular; [auto|split; [exists "v"; split; reflexivity|auto]]|].
  split; [apply wind_regular; [auto|split; [exists "u"; split; reflexivity|auto]]|].
  repeat (split; [vm_compute; reflexivity|]). vm_compute; reflexivity.
Qed.

(** Finding: a variable of a second grid has other names of its horizontal dimensions than the axes it is interpolated
    from (C99). All of it can be read, but a part of its rows or columns can not. *)
Theorem C100_second_grid_refuted :
  (exists w, read (wind []) "u" (req ["x_u"; "y_u"; "level"] [2; 2; 2] [0; 0; 0] [2; 2; 2]) = Ok w) /\
  read (wind []) "u" (req ["x_u"; "y_u"; "level"] [2; 2; 2] [0; 1; 0] [2; 1; 2]) = Throw /\
  (exists w, read (wind []) "u" (req names3 [2; 2; 2] [0; 1; 0] [2; 1; 2]) = Ok w).
Proof. split; [eexists; vm_compute; reflexivity|]. split; [vm_compute; reflexivity|eexists; vm_compute; reflexivity]. Qed.

(** Finding: the two fastest dimensions are taken for x and y whatever they are. A variable whose rows are fastest is
    interpolated from wrong cells: at the point (2, 0) it has the value 20, but 10 is read. *)
Theorem C100_order_refuted :
  let s := mkStored DFloat None [("y", 2%N); ("x", 3%N)] (map vz [0; 1; 10; 11; 20; 21]%Z) in
  let i := mkInterp [("a", s)] [] [("a", "x,y")] [("x,y", nearest_grid 0 "x" "y" 3 2 1 1 [(2, 0)%Q])] [] [] [] [] in
  zs_of (fetch s (req ["y"; "x"] [2; 3] [0; 2] [1; 1])) = Some [Some 20%Z] /\
  zs_of (read i "a" (req ["y"; "x"] [1; 1] [0; 0] [1; 1])) = Some [Some 10%Z].
Proof. split; vm_compute; reflexivity. Qed.

(** Finding: vectors are turned as they are stored. With an offset o the value meant by a stored n is n + o; the
    quarter turn of (u, v) has the first component - v, but with an offset of 10 another one is read. *)
Theorem C100_packed_refuted :
  let meant n := (n + 10)%Z in
  exists un vn rn, zs_of (read (wind []) "u" (req names3 [2; 2; 2] [0; 0; 0] [1; 1; 1])) = Some [Some un] /\
    zs_of (read (wind []) "v" (req names3 [2; 2; 2] [0; 0; 0] [1; 1; 1])) = Some [Some vn] /\
    zs_of (read (wind both) "u" (req names3 [2; 2; 2] [0; 0; 0] [1; 1; 1])) = Some [Some rn] /\
    meant rn <> (- meant vn)%Z.
Proof. exists 3%Z, 23%Z, (-23)%Z. split; [vm_compute; reflexivity|]. split; [vm_compute; reflexivity|]. split; [vm_compute; reflexivity|vm_compute; discriminate]. Qed.

(** Finding: the components of a vector on different axes are not turned at all, without an error. *)
Theorem C100_other_axes_refuted : forall i u v d h, sfind u (i_grid i) = Some h -> sfind u (i_vec i) = Some (v, d) -> sfind v (i_grid i) <> Some h ->
  forall q, read i u q = read (unturned i) u q.
Proof.
  intros i u v d h G V NV q. unfold read. cbn [i_own i_reader i_grid i_cached unturned]. rewrite G. destruct (sfind u (i_own i)); [reflexivity|].
  destruct (sfind u (i_reader i)) as [s|]; [|reflexivity]. destruct (sfind h (i_cached i)) as [ci|]; [|reflexivity].
  destruct (input ci s q) as [dd| | |]; cbn [obind]; try reflexivity. destruct dd as [|v0 dd]; [reflexivity|].
  assert (forall b n, turned i ci u h q n b = turned (unturned i) ci u h q n b) as T.
  { intros b n. unfold turned. assert (partner i u h = None) as ->; [|reflexivity]. unfold partner. rewrite V. destruct d; try reflexivity.
    all: destruct (sfind v (i_grid i)) as [h'|]; [|reflexivity]; destruct (sfind h (i_turn i)); [|reflexivity]; destruct (String.eqb_spec h h') as [->|]; [congruence|reflexivity]. }
  change (prepared (unturned i) ci s) with (prepared i ci s). change (i_post (unturned i)) with (i_post i).
  destruct (prepared i ci s (length (v0 :: dd)) (v0 :: dd)) as [a| | |]; cbn [obind]; try reflexivity. destruct (ci_values ci a) as [b| | |]; cbn [obind]; try reflexivity. now rewrite T.
Qed.

(** Finding: if the other component has a dimension this one has not, neither can be read. *)
Theorem C100_other_levels_refuted :
  let sw := mkStored DFloat None [("x", 3%N); ("y", 2%N); ("height", 2%N)] (s_data sv) in
  let i := mkInterp [("u", su); ("v", sw)] [] [("u", "x,y"); ("v", "x,y")] [("x,y", grid)] [("x,y", quarter)] both [] [] in
  read i "u" (req names3 [2; 2; 2] [0; 0; 0] [2; 2; 2]) = Throw /\ read i "v" (req ["x"; "y"; "height"] [2; 2; 2] [0; 0; 0] [2; 2; 2]) = Throw /\
  exists w, read (unturned i) "u" (req names3 [2; 2; 2] [0; 0; 0] [2; 2; 2]) = Ok w.
Proof. split; [vm_compute; reflexivity|]. split; [vm_compute; reflexivity|]. eexists; vm_compute; reflexivity. Qed.

Print Assumptions C100_second_grid_refuted.
Print Assumptions C100_order_refuted.
Print Assumptions C100_packed_refuted.
Print Assumptions C100_other_axes_refuted.
Print Assumptions C100_other_levels_refuted.
