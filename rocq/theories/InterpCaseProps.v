(** C99: concrete interpolated files. *)
From Coq Require Import PeanoNat NArith ZArith QArith Qcanon Ascii String List Bool Lia.
From Verif Require Import Base StdMap RegridModel SliceModel StringModel NmlModel ConvertModel CdmModel CdmProofs CdmProps AxesModel CfcsModel CfcsProps BestModel BestProps ProjModel ProjEarthProps ProjReadProps InterpModel InterpProofs InterpProps.
Import ListNotations.
Local Open Scope string_scope.
Local Open Scope list_scope.
Local Open Scope nat_scope.

Definition to (p : string) (lon lat : string) := mkTarget (s_ p) [z 0; z 10] [z 0; z 10; z 20] "m" "m" DFloat DInt lon lat.
Definition stere := to "+proj=stere +lat_0=90 +lon_0=0 +lat_ts=60 +a=1 +e=0".
Definition rotated_pole := to "+proj=ob_tran +o_proj=longlat +lon_0=0 +o_lat_p=20 +a=1 +e=0".
(** longitudes and latitudes are not computed in these cases *)
Definition ll0 (_ : str) (xs ys : list value) : outcome (list value * list value) := Ok (flat_map (fun _ => xs) ys, flat_map (fun y => map (fun _ => y) xs) ys).
Definition result (t : target) (c : cdm) : option (cdm * smap string) :=
  match list_systems c ex_time ex_conv _ ex_proj with
  | Ok l => match interpolated _ read0 (fun _ _ => Ok (s_ "text")) ll0 t true l c with Ok r => Some r | _ => None end
  | _ => None
  end.
Definition shapes (t : target) (c : cdm) := option_map (fun r => (map (fun v => (v_name v, v_shape v)) (vars (fst r)), map (fun d => (d_name d, d_len d)) (dims (fst r)))) (result t c).
Definition texts (t : target) (c : cdm) (l : list (string * string)) :=
  option_map (fun r => map (fun na => option_map CdmModel.a_text (get_attr (fst r) (fst na) (snd na))) l) (result t c).

(** two or three grids *)
Definition pg := [txt "grid_mapping" "proj"].
Definition grids (u v : list string) (h : list cattr) : cdm := mkCdm
  [fv "temp" ["y"; "x"]; fv "u" u; fv "v" v; fv "proj" []; fv "x" ["x"]; fv "y" ["y"]; fv "xu" ["xu"]; fv "yv" ["yv"]; fv "h" ["y"; "x"]; fv "height" []]
  [mkDim "x" 4 false; mkDim "y" 3 false; mkDim "xu" 5 false; mkDim "yv" 4 false]
  [("h", h); ("proj", [txt "grid_mapping_name" "polar_stereographic"]); ("temp", pg); ("u", pg); ("v", pg);
   ("x", [txt "standard_name" "projection_x_coordinate"; txt "bounds" "x_bnds"]); ("xu", [txt "standard_name" "projection_x_coordinate"]);
   ("y", [txt "standard_name" "projection_y_coordinate"]); ("yv", [txt "standard_name" "projection_y_coordinate"])].

(** one grid, and two that share no axis *)
Example C99_nonvacuous :
  shapes (stere "longitude" "latitude") (bfile (on_grid "proj") (on_grid "proj") []) =
    Some ([("temp", ["time"; "y"; "x"]); ("wind", ["time"; "y"; "x"]); ("mask", ["y"; "x"]); ("time", ["time"]); ("x", ["x"]); ("y", ["y"]); ("projection_stere", []);
           ("longitude", ["x"; "y"]); ("latitude", ["x"; "y"])], [("time", 0%N); ("x", 2%N); ("y", 3%N)]) /\
  texts (stere "longitude" "latitude") (bfile (on_grid "proj") (on_grid "proj") []) [("temp", "coordinates"); ("temp", "grid_mapping"); ("projection_stere", "grid_mapping_name"); ("_GLOBAL", "Conventions")] =
    Some [Some "longitude latitude"; Some "projection_stere"; Some "polar_stereographic"; Some "CF-1.4"] /\
  shapes (to "+proj=latlong" "longitude" "latitude") (bfile (on_grid "proj") (on_grid "proj") []) =
    Some ([("temp", ["time"; "y"; "x"]); ("wind", ["time"; "y"; "x"]); ("mask", ["y"; "x"]); ("time", ["time"]); ("x", ["x"]); ("y", ["y"])], [("time", 0%N); ("x", 2%N); ("y", 3%N)]) /\
  shapes (stere "longitude" "latitude") (grids ["yv"; "xu"] ["yv"; "xu"] pg) =
    Some ([("temp", ["y"; "x"]); ("u", ["y"; "x"]); ("v", ["y"; "x"]); ("x", ["x"]); ("y", ["y"]); ("h", ["y"; "x"]); ("height", []); ("projection_stere", []);
           ("longitude", ["x"; "y"]); ("latitude", ["x"; "y"])], [("x", 2%N); ("y", 3%N)]).
Proof. split; [ vm_compute; reflexivity | split; [ vm_compute; reflexivity | split; [ vm_compute; reflexivity | vm_compute; reflexivity ] ] ]. Qed.

(** the hypotheses of the theorems, for the two grids that share no axis *)
Lemma distinct (l : list string) : nodup string_dec l = l -> NoDup l.
Proof. intros <-. apply NoDup_nodup. Qed.
Definition as_map {A} (l : list (string * A)) : smap A := fold_left (fun m p => sput (fst p) (snd p) m) l [].
Lemma as_map_sorted {A} (l : list (string * A)) : as_map l = l -> ssorted l.
Proof.
  intro E. rewrite <- E. unfold as_map. assert (K : forall l m, ssorted m -> ssorted (fold_left (fun (m : smap A) p => sput (fst p) (snd p) m) l m)).
  { clear. induction l as [ | p l IH ]; intros m H; cbn [fold_left]; [ exact H | ]. apply IH. now apply sput_sorted. }
  apply K. constructor.
Qed.
Lemma sfind_some_in {A} n (a : A) m : sfind n m = Some a -> In (n, a) m.
Proof. induction m as [ | [k b] m IH ]; cbn; [ discriminate | ]. destruct (String.eqb_spec n k) as [->|]; [ intro H; injection H as ->; now left | auto ]. Qed.
Definition sys_of (x y : string) : mini (list string) := mkMini (mkCs [mkAxis x GeoX 0; mkAxis y GeoY 0] []) (Some ["polar_stereographic"]) [].
Lemma pairs_apart {A} (a b : A) l1 p l2 q l3 : [a; b] = l1 ++ p :: l2 ++ q :: l3 -> p = a /\ q = b.
Proof.
  intro E. assert (L := f_equal (@length A) E). rewrite !app_length in L. cbn [length] in L. rewrite app_length in L. cbn [length] in L. destruct l1; cbn [length] in L; [ | exfalso; lia ]. destruct l2; cbn [length] in L; [ | exfalso; lia ].
  cbn in E. injection E as -> -> _. now split.
Qed.
Example C99_given_nonvacuous : let c := grids ["yv"; "xu"] ["yv"; "xu"] pg in let pv := [("h", "x,y"); ("temp", "x,y"); ("u", "xu,yv"); ("v", "xu,yv")] in
  let first := (sys_of "x" "y", ("x", "y")) in let others := [(sys_of "xu" "yv", ("xu", "yv"))] in let t := stere "longitude" "latitude" in
  given _ c pv t [("x,y", sys_of "x" "y"); ("xu,yv", sys_of "xu" "yv")] first others [z 0; z 10] [z 0; z 10; z 20] /\
  names_free _ t first (s_ "stere") /\ ~ geographic (t_proj t) /\ shaped c /\
  removed _ c first others "proj" /\ removed _ c first others "xu" /\ ~ removed _ c first others "temp".
Proof.
  cbv zeta. set (c := grids ["yv"; "xu"] ["yv"; "xu"] pg). set (first := (sys_of "x" "y", ("x", "y"))). set (other := (sys_of "xu" "yv", ("xu", "yv"))).
  assert (FIND : forall n v, find_var n (vars c) = Some v -> In v (vars c) /\ n = v_name v) by (intros n v H; apply find_some in H; destruct H as [H E]; split; [ exact H | now apply String.eqb_eq in E ]).
  split; [ | split; [ | split; [ | split; [ | split; [ | split ] ] ] ] ].
  - constructor.
    + constructor.
      * apply distinct. reflexivity.
      * apply distinct. reflexivity.
      * apply as_map_sorted. vm_compute. reflexivity.
      * intros n I. right. cbn in I |- *. tauto.
      * intro n. unfold attrs_of. destruct (sfind n (attrs c)) as [l|] eqn:E; [ | constructor ]. apply sfind_some_in in E. apply distinct. cbn in E. repeat (destruct E as [E|E]; [ injection E as <- <-; reflexivity | ]). destruct E.
    + split; [ apply as_map_sorted; vm_compute; reflexivity | ]. intros n I. cbn in I |- *. tauto.
    + reflexivity.
    + constructor.
      * intros p [<-|[<-|[]]]; (split; [ | discriminate ]).
        -- exists (mkAxis "x" GeoX 0), (mkAxis "y" GeoY 0). split; [ reflexivity | split; [ reflexivity | ] ]. right. split; [ reflexivity | split; [ reflexivity | ] ]. intros lon L. discriminate L.
        -- exists (mkAxis "xu" GeoX 0), (mkAxis "yv" GeoY 0). split; [ reflexivity | split; [ reflexivity | ] ]. right. split; [ reflexivity | split; [ reflexivity | ] ]. intros lon L. discriminate L.
      * intros l1 p l2 q l3 E n I J. destruct (pairs_apart _ _ _ _ _ _ _ E) as [-> ->]. cbn in I, J. intuition (subst; discriminate).
      * intros p n [<-|[<-|[]]] I; cbn in I; intuition (subst; reflexivity).
      * intros f p l1 l2 E n v d F I J. destruct l1 as [ | ? [ | ? ? ] ]; try discriminate E. injection E as <- <- <-. apply FIND in F. destruct F as [F ->]. cbn in F, J.
        repeat (destruct F as [<-|F]; [ cbn in I |- *; intuition (subst; try discriminate; auto 10) | ]). destruct F.
    + split; cbn; auto 10.
    + split; [ cbn; intuition discriminate | ]. intros p n [<-|[<-|[]]] I; cbn in I; intuition (subst; discriminate).
    + split; cbn; intuition discriminate.
    + vm_compute. reflexivity.
    + vm_compute. reflexivity.
  - unfold names_free. repeat (split; [ reflexivity | ]). reflexivity.
  - intros (p & E & I). vm_compute in E. injection E as <-. vm_compute in I. intuition discriminate.
  - intros n v d F I. apply FIND in F. destruct F as [F ->]. cbn in F. repeat (destruct F as [<-|F]; [ cbn in I |- *; intuition (subst; auto 10) | ]). destruct F.
  - left. split; [ exists first; split; [ now left | discriminate ] | ]. split; [ cbn; auto 10 | discriminate ].
  - right. right. exists other. split; [ now left | now left ].
  - intros [(_ & _ & H)|[(p & lat & lon & I & L & _)|(p & I & H)]].
    + apply H. reflexivity.
    + destruct I as [<-|[<-|[]]]; discriminate L.
    + destruct I as [<-|[]]. destruct H; discriminate.
Qed.

(** Finding: a rotated pole is described as rotated_latitude_longitude, but its axes are not called
    grid_longitude and grid_latitude: the test is for a name the variable never has *)
Theorem C99_rotated_refuted :
  texts (rotated_pole "longitude" "latitude") (bfile (on_grid "proj") (on_grid "proj") []) [("temp", "grid_mapping"); ("projection_ob_tran", "grid_mapping_name"); ("x", "standard_name"); ("y", "standard_name")] =
    Some [Some "projection_ob_tran"; Some "rotated_latitude_longitude"; Some "projection_x_coordinate"; Some "projection_y_coordinate"].
Proof. vm_compute. reflexivity. Qed.
(** Finding: wind components on staggered grids share one axis with the other variables; such files cannot
    be interpolated, as the shared dimension is removed although it is used *)
Theorem C99_staggered_refuted : (exists l, list_systems (grids ["y"; "xu"] ["yv"; "x"] pg) ex_time ex_conv _ ex_proj = Ok l /\
    forall by4 to4 lonlat t, proj_name (t_proj t) <> Throw -> interpolated _ by4 to4 lonlat t true l (grids ["y"; "xu"] ["yv"; "x"] pg) = Throw) /\
  result (stere "longitude" "latitude") (grids ["y"; "xu"] ["yv"; "x"] pg) = None.
Proof.
  split; [ | vm_compute; reflexivity ]. eexists. split; [ vm_compute; reflexivity | ]. intros by4 to4 ll t H. unfold interpolated.
  match goal with |- context [best ?A ?B ?C ?D] => let r := eval vm_compute in (best A B C D) in change (best A B C D) with r end. cbn [obind].
  unfold change_cdm. destruct (proj_name (t_proj t)) as [p| | |] eqn:E; cbn [obind]; try congruence.
  - match goal with |- context [ofold ?f ?l ?s] => let r := eval vm_compute in (ofold f l s) in change (ofold f l s) with r end. reflexivity.
  - unfold proj_name in E. destruct (key "proj" (t_proj t)); discriminate.
  - unfold proj_name in E. destruct (key "proj" (t_proj t)); discriminate.
Qed.
(** Finding: with the same x axis but another y axis the attributes of the x axis and the old dimension of
    y differ from the case of separate axes: the x axis is removed and made anew, the dimension is kept *)
Theorem C99_shared_axis_refuted :
  shapes (stere "longitude" "latitude") (grids ["y"; "x"] ["yv"; "x"] pg) =
    Some ([("temp", ["y"; "x"]); ("u", ["y"; "x"]); ("v", ["y"; "x"]); ("y", ["y"]); ("xu", ["xu"]); ("h", ["y"; "x"]); ("height", []); ("projection_stere", []); ("x", ["x"]);
           ("longitude", ["x"; "y"]); ("latitude", ["x"; "y"])], [("x", 2%N); ("y", 3%N); ("xu", 5%N); ("yv", 4%N)]) /\
  texts (stere "longitude" "latitude") (grids ["y"; "x"] ["yv"; "x"] pg) [("x", "bounds")] = Some [None].
Proof. split; [ vm_compute; reflexivity | vm_compute; reflexivity ]. Qed.
(** Finding: other coordinates of a variable, like a height, are no longer named; the bounds of an axis are,
    although they belong to the old values *)
Theorem C99_coordinates_refuted : texts (stere "longitude" "latitude") (grids ["y"; "x"] ["y"; "x"] [txt "grid_mapping" "proj"; txt "coordinates" "height"]) [("h", "coordinates"); ("x", "bounds")] =
  Some [Some "longitude latitude"; Some "x_bnds"].
Proof. vm_compute. reflexivity. Qed.
(** Finding: the names for longitudes and latitudes are chosen before the first one is used, so that they
    may be the same *)
Theorem C99_same_names_refuted : result (stere "longitude" "longitude") (grids ["y"; "x"] ["y"; "x"] pg) = None /\ result (stere "longitude" "latitude") (grids ["y"; "x"] ["y"; "x"] pg) <> None.
Proof. split; [ vm_compute; reflexivity | ]. intro H. apply (f_equal (option_map (fun r => map v_name (vars (fst r))))) in H. vm_compute in H. discriminate. Qed.

Print Assumptions C99_rotated_refuted.
Print Assumptions C99_staggered_refuted.
Print Assumptions C99_shared_axis_refuted.
Print Assumptions C99_coordinates_refuted.
Print Assumptions C99_same_names_refuted.
