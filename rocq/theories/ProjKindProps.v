(** C96: which projection a PROJ.4 text is read as. *)
From Coq Require Import PeanoNat NArith ZArith QArith Qcanon Ascii String List Bool Lia Lqa.
From Verif Require Import Base RegridModel StringModel StringProofs TextModel SpecModel ConvertModel CdmModel NmlModel ProjModel.
Import ListNotations.
Local Open Scope string_scope.
Local Open Scope list_scope.
Local Open Scope nat_scope.

(** the names of PROJ.4 that stand for one projection *)
Inductive stands_for : string -> kind -> Prop :=
| sf_aea : stands_for "aea" Albers | sf_aeqd : stands_for "aeqd" Azimuthal | sf_geos : stands_for "geos" Geostationary
| sf_laea : stands_for "laea" LambertAzimuthal | sf_lcc : stands_for "lcc" LambertConic | sf_cea : stands_for "cea" LambertCylindrical
| sf_latlong : stands_for "latlong" LatLong | sf_longlat : stands_for "longlat" LatLong | sf_merc : stands_for "merc" Mercator
| sf_omerc : stands_for "omerc" Oblique | sf_ortho : stands_for "ortho" Orthographic | sf_sinu : stands_for "sinu" Sinusoidal
| sf_tmerc : stands_for "tmerc" Transverse | sf_utm : stands_for "utm" Transverse | sf_gstmerc : stands_for "gstmerc" Transverse
| sf_etmerc : stands_for "etmerc" Transverse | sf_nsper : stands_for "nsper" Perspective.
(** within 0.0001 degrees of the north or the south pole *)
Definition near (x p : Qc) : Prop := (p - Q2Qc (1 # 10000) < x)%Qc /\ (x < p + Q2Qc (1 # 10000))%Qc.
Definition near_pole (x : Qc) : Prop := near x (Q2Qc 90) \/ near x (Q2Qc (-90)).

Lemma qlt_spec a b : qlt a b = true <-> (a < b)%Qc.
Proof.
  unfold qlt. destruct (a ?= b)%Qc eqn:E; split; intro H; try discriminate; try reflexivity.
  - apply Qceq_alt in E. subst. exfalso. now apply Qclt_not_eq in H.
  - now apply Qclt_alt.
  - exfalso. apply Qcgt_alt in E. apply (Qclt_not_le _ _ H). now apply Qclt_le_weak.
Qed.
Lemma qabs_lt y e : qlt (qabs y) e = true <-> (- e < y)%Qc /\ (y < e)%Qc.
Proof.
  rewrite qlt_spec. unfold qabs. destruct (qlt y 0) eqn:E.
  - apply qlt_spec in E. unfold Qclt in *. cbn [this Qcopp Q2Qc] in *. rewrite !Qred_correct in *. split; [intro H; split; lra|intros (A & B); lra].
  - assert (N : ~ (y < 0)%Qc) by (intro H; apply qlt_spec in H; congruence). unfold Qclt in *. cbn [this Qcopp Q2Qc] in *. rewrite !Qred_correct in *. split; [intro H; split; lra|intros (A & B); lra].
Qed.

Lemma at_pole_spec x : at_pole (Some x) = true <-> near_pole x.
Proof.
  cbn [at_pole]. rewrite qabs_lt. unfold near_pole, near, qabs. destruct (qlt x 0) eqn:E.
  - apply qlt_spec in E. unfold Qclt, Qcminus, z2q, inject_Z in *. cbn [this Qcopp Qcplus Q2Qc] in *. rewrite !Qred_correct in *. split; [intros (A & B); right; split; lra|intros [(A & B)|(A & B)]; split; lra].
  - assert (N : ~ (x < 0)%Qc) by (intro H; apply qlt_spec in H; congruence). unfold Qclt, Qcminus, z2q, inject_Z in *. cbn [this Qcopp Qcplus Q2Qc] in *. rewrite !Qred_correct in *. split; [intros (A & B); left; split; lra|intros [(A & B)|(A & B)]; split; lra].
Qed.

Lemma s_inj a b : s_ a = s_ b -> a = b.
Proof. unfold s_. intro H. rewrite <- (string_of_list_ascii_of_string a), <- (string_of_list_ascii_of_string b). now f_equal. Qed.

Theorem C96_kind num s p : key "proj" s = Some (s_ p) ->
  (forall k, stands_for p k -> accepting num s = Ok (Some k)) /\
  (p = "stere" -> key "lat_0" s = None -> accepting num s = Ok (Some Stereographic)) /\
  (forall t x, p = "stere" -> key "lat_0" s = Some t -> num t = Ok (Some x) ->
     (near_pole x -> accepting num s = Ok (Some PolarStere)) /\ (~ near_pole x -> accepting num s = Ok (Some Stereographic))) /\
  (forall o, p = "ob_tran" -> key "o_proj" s = Some (s_ o) -> o = "latlong" \/ o = "longlat" -> accepting num s = Ok (Some Rotated)) /\
  ((forall k, ~ stands_for p k) -> p <> "stere" -> (p = "ob_tran" -> key "o_proj" s <> Some (s_ "latlong") /\ key "o_proj" s <> Some (s_ "longlat")) ->
     accepting num s = Ok (Some Unknown)).
Proof.
  intro K. unfold accepting. rewrite K. split; [|split; [|split; [|split]]].
  - intros k H. destruct H; reflexivity.
  - intros -> L. rewrite L. reflexivity.
  - intros t x -> L N. rewrite L, N. cbn [obind]. split; intro H.
    + apply at_pole_spec in H. cbn [find fst simple_names]. rewrite H. reflexivity.
    + destruct (at_pole (Some x)) eqn:E; [|reflexivity]. apply at_pole_spec in E. contradiction.
  - intros o -> L H. rewrite L. destruct H as [-> | ->]; reflexivity.
  - intros NS NT NO.
    destruct (find (fun x => str_eqb (s_ p) (s_ (fst x))) simple_names) as [x|] eqn:F.
    + exfalso. apply find_some in F as (I & E). apply str_eqb_eq in E. apply s_inj in E. apply (NS (snd x)). rewrite E.
      unfold simple_names in I. repeat (destruct I as [<-|I]; [constructor|]). destruct I.
    + destruct (str_eqb (s_ p) (s_ "stere")) eqn:E1; [apply str_eqb_eq in E1; apply s_inj in E1; contradiction|].
      destruct (str_eqb (s_ p) (s_ "ob_tran")) eqn:E2; [|reflexivity]. apply str_eqb_eq in E2. apply s_inj in E2. destruct (NO E2) as (A & B). cbn [andb].
      destruct (key "o_proj" s) as [o|]; [|reflexivity].
      destruct (str_eqb o (s_ "latlong")) eqn:E3; [apply str_eqb_eq in E3; congruence|].
      destruct (str_eqb o (s_ "longlat")) eqn:E4; [apply str_eqb_eq in E4; congruence|]. reflexivity.
Qed.
(** without +proj= the text is refused *)
Theorem C96_no_kind num strtod dotted minor fuel s : key "proj" s = None -> create_by_proj4 num strtod dotted minor fuel s = Throw.
Proof. intro K. unfold create_by_proj4, accepting. rewrite K. reflexivity. Qed.

(** the south pole: lat_0=-90 *)
Example C96_kind_nonvacuous : near_pole (Q2Qc (-90)) /\ ~ near_pole (Q2Qc (-60)) /\
  key "proj" (s_ "+proj=stere +lat_0=-90 +lon_0=0") = Some (s_ "stere") /\ key "lat_0" (s_ "+proj=stere +lat_0=-90 +lon_0=0") = Some (s_ "-90").
Proof.
  split; [right; split; reflexivity|]. split; [|split; vm_compute; reflexivity].
  intros [(A & _)|(_ & A)]; [apply (Qclt_not_le _ _ A); discriminate|apply (Qclt_not_le _ _ A); discriminate].
Qed.

Print Assumptions C96_kind.
Print Assumptions C96_no_kind.
