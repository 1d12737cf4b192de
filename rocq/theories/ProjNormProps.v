(** C96: the longitude of a rotated pole is read into -180..180, whatever the longitude in the text. *)
From Coq Require Import PeanoNat NArith ZArith QArith Qcanon Ascii String List Bool Lia Lqa.
From Verif Require Import Base RegridModel StringModel StringProofs TextModel SpecModel ConvertModel CdmModel NmlModel ProjModel ProjKindProps.
Import ListNotations.
Local Open Scope string_scope.
Local Open Scope list_scope.
Local Open Scope nat_scope.

Ltac toQ := unfold Qcle, Qclt, Qcminus, z2q, inject_Z in *; cbn [this Qcopp Qcplus Qcmult Q2Qc] in *; rewrite ?Qred_correct in *.

Lemma z2q_succ m : z2q (Z.succ m) = (z2q m + 1)%Qc.
Proof. apply Qc_is_canon. unfold z2q. cbn [this Qcplus Q2Qc]. rewrite !Qred_correct. unfold Z.succ. rewrite inject_Z_plus. reflexivity. Qed.

Lemma up180_spec n x : (z2q (-180) - z2q 360 * z2q (Z.of_nat n) <= x)%Qc ->
  exists y m, up180 n x = Ok y /\ (z2q (-180) <= y)%Qc /\ y = (x + z2q 360 * z2q m)%Qc /\ (0 <= m)%Z /\ ((z2q 180 < y)%Qc -> y = x).
Proof.
  revert x. induction n as [|n IH]; intros x H; cbn [up180].
  - destruct (qlt x (z2q (-180))) eqn:E.
    + apply qlt_spec in E. exfalso. change (z2q (Z.of_nat 0)) with 0%Qc in H. toQ. lra.
    + exists x, 0%Z. split; [reflexivity|]. assert (N : ~ (x < z2q (-180))%Qc) by (intro K; apply qlt_spec in K; congruence).
      split; [apply Qcnot_lt_le; exact N|]. split; [change (z2q 0) with 0%Qc; ring|]. split; [lia|reflexivity].
  - destruct (qlt x (z2q (-180))) eqn:E.
    + apply qlt_spec in E. destruct (IH (x + z2q 360)%Qc) as (y & m & -> & A & B & C & D).
      { rewrite Nat2Z.inj_succ, z2q_succ in H. toQ. lra. }
      exists y, (Z.succ m). split; [reflexivity|]. split; [exact A|]. split; [rewrite B, z2q_succ; ring|]. split; [lia|].
      intro K. exfalso. rewrite (D K) in K. toQ. lra.
    + exists x, 0%Z. split; [reflexivity|]. assert (N : ~ (x < z2q (-180))%Qc) by (intro K; apply qlt_spec in K; congruence).
      split; [apply Qcnot_lt_le; exact N|]. split; [change (z2q 0) with 0%Qc; ring|]. split; [lia|reflexivity].
Qed.
Lemma down180_spec n x : (x <= z2q 180 + z2q 360 * z2q (Z.of_nat n))%Qc -> (z2q (-180) <= x)%Qc ->
  exists y m, down180 n x = Ok y /\ (z2q (-180) <= y)%Qc /\ (y <= z2q 180)%Qc /\ y = (x - z2q 360 * z2q m)%Qc.
Proof.
  revert x. induction n as [|n IH]; intros x H L; cbn [down180].
  - destruct (qlt (z2q 180) x) eqn:E.
    + apply qlt_spec in E. exfalso. change (z2q (Z.of_nat 0)) with 0%Qc in H. toQ. lra.
    + exists x, 0%Z. assert (N : ~ (z2q 180 < x)%Qc) by (intro K; apply qlt_spec in K; congruence).
      split; [reflexivity|]. split; [exact L|]. split; [apply Qcnot_lt_le; exact N|]. change (z2q 0) with 0%Qc. ring.
  - destruct (qlt (z2q 180) x) eqn:E.
    + apply qlt_spec in E. destruct (IH (x - z2q 360)%Qc) as (y & m & -> & A & B & C).
      { rewrite Nat2Z.inj_succ, z2q_succ in H. toQ. lra. }
      { toQ. lra. }
      exists y, (Z.succ m). split; [reflexivity|]. split; [exact A|]. split; [exact B|]. rewrite C, z2q_succ. ring.
    + exists x, 0%Z. assert (N : ~ (z2q 180 < x)%Qc) by (intro K; apply qlt_spec in K; congruence).
      split; [reflexivity|]. split; [exact L|]. split; [apply Qcnot_lt_le; exact N|]. change (z2q 0) with 0%Qc. ring.
Qed.

(** the number of turns that the loops are given *)
Definition turns (fuel : nat) (x : Qc) : Prop :=
  (z2q (-180) - z2q 360 * z2q (Z.of_nat fuel) <= x)%Qc /\ (x <= z2q 180 + z2q 360 * z2q (Z.of_nat fuel))%Qc.

Lemma norm180_spec fuel x : turns fuel x -> exists y m, norm180 fuel (Some x) = Ok (Some y) /\
  (z2q (-180) <= y)%Qc /\ (y <= z2q 180)%Qc /\ y = (x + z2q 360 * z2q m)%Qc.
Proof.
  intros (A & B). cbn [norm180]. destruct (up180_spec fuel x A) as (y & m & -> & L & Y & P & D). cbn [obind].
  destruct (down180_spec fuel y) as (z & k & -> & L1 & L2 & Z); [|exact L|].
  { destruct (qlt (z2q 180) y) eqn:E.
    - apply qlt_spec in E. rewrite (D E). exact B.
    - assert (N : ~ (z2q 180 < y)%Qc) by (intro K; apply qlt_spec in K; congruence). apply Qcnot_lt_le in N.
      apply Qcle_trans with (z2q 180); [exact N|].
      assert (Q : (0 <= z2q (Z.of_nat fuel))%Qc) by (unfold z2q, Qcle; cbn [this Q2Qc]; rewrite !Qred_correct; unfold inject_Z, Qle; cbn; lia).
      toQ. lra. }
  exists z, (m - k)%Z. split; [reflexivity|]. split; [exact L1|]. split; [exact L2|].
  rewrite Z, Y. replace (z2q (m - k)) with (z2q m - z2q k)%Qc; [ring|].
  apply Qc_is_canon. unfold z2q, Qcminus. cbn [this Qcplus Qcopp Q2Qc]. rewrite !Qred_correct. unfold Z.sub.
  rewrite inject_Z_plus, inject_Z_opp. reflexivity.
Qed.

(** The pole of a rotated grid lies at lon_0 + 180, brought into -180..180 by whole turns. *)
Theorem C96_pole_longitude num dotted minor fuel s t x lat g e : earth num dotted minor s = Ok e -> key "lon_0" s = Some t -> num t = Ok (Some x) -> turns fuel (z2q 180 + x)%Qc ->
  or_num num "o_lat_p" (Some (z2q 90)) s = Ok lat -> or_num num "o_lon_p" (Some 0%Qc) s = Ok g ->
  exists y m ps, rotated num dotted minor fuel s = Ok ps /\ In (dbl "grid_north_pole_longitude" (Some y)) ps /\
    (z2q (-180) <= y)%Qc /\ (y <= z2q 180)%Qc /\ y = (x + z2q 180 + z2q 360 * z2q m)%Qc.
Proof.
  intros EA K X T LA G. destruct (norm180_spec fuel _ T) as (y & m & E & L1 & L2 & Y).
  exists y, m. unfold rotated. rewrite LA, G. cbn [obind].
  unfold or_num. rewrite K, X. cbn [obind vadd]. rewrite E. cbn [obind]. rewrite EA. cbn [obind]. eexists. split; [reflexivity|].
  split; [right; now left|]. split; [exact L1|]. split; [exact L2|]. rewrite Y. ring.
Qed.

(** lon_0=350 is the pole at 170, lon_0=-360 at 180 *)
Example C96_pole_nonvacuous :
  turns 3 (z2q 180 + z2q 350)%Qc /\ norm180 3 (Some (z2q 180 + z2q 350)%Qc) = Ok (Some (z2q 170)) /\
  turns 3 (z2q 180 + z2q (-380))%Qc /\ norm180 3 (Some (z2q 180 + z2q (-380))%Qc) = Ok (Some (z2q 160)).
Proof.
  split; [split; vm_compute; discriminate|]. split; [|split; [split; vm_compute; discriminate|]];
    cbv [norm180 up180 down180 obind];
    repeat match goal with |- context [qlt ?a ?b] => let v := eval vm_compute in (qlt a b) in replace (qlt a b) with v by reflexivity end; cbv iota beta;
    do 2 f_equal; apply Qc_is_canon; vm_compute; reflexivity.
Qed.

(** An oblique projection without rotation is written with +no_rot, which sets no_rotation when read. *)
Lemma find_sub_middle m a b : forall i, find_sub m (a ++ m ++ b) i <> None.
Proof.
  induction a as [|x a IH]; intros i; cbn [app].
  - assert (E : begins m (m ++ b) = true).
    { clear. induction m as [|x m IH]; [destruct b; reflexivity|]. cbn [app begins].
      rewrite Ascii.eqb_refl. exact IH. }
    destruct (m ++ b); cbn [find_sub]; rewrite E; discriminate.
  - cbn [find_sub]. destruct (begins m (x :: a ++ m ++ b)); [discriminate | apply IH].
Qed.
Lemma within_l (m a b : str) : (exists p q, a = p ++ m ++ q) -> exists p q, a ++ b = p ++ m ++ q.
Proof. intros (p & q & ->). exists p, (q ++ b). now rewrite <- !app_assoc. Qed.
Lemma within_r (m a b : str) : (exists p q, b = p ++ m ++ q) -> exists p q, a ++ b = p ++ m ++ q.
Proof. intros (p & q & ->). exists (a ++ p), q. now rewrite <- !app_assoc. Qed.
Lemma Ok_inj {A} (a b : A) : Ok a = Ok b -> a = b.
Proof. congruence. Qed.
Theorem C96_no_rotation num strtod dotted minor fuel show16 show6 ps t ps' :
  param ps "no_rotation" = Some (text_att "no_rotation" "") ->
  proj4_of show16 show6 Oblique ps = Ok t ->
  from_proj4 num strtod dotted minor fuel Oblique t = Ok ps' ->
  In (text_att "no_rotation" "") ps'.
Proof.
  intros P W R.
  assert (F : flag "no_rot" t = true).
  { assert (H : exists p q, t = p ++ s_ "+no_rot" ++ q).
    { unfold proj4_of in W. apply Ok_inj in W. rewrite <- W.
      apply within_l. do 6 apply within_r. unfold put, put_opt. rewrite P.
      cbn [text_att CdmModel.a_type a_text]. exists [" "%char], []. reflexivity. }
    destruct H as (p & q & ->). unfold flag. change (s_ ("+" ++ "no_rot")) with (s_ "+no_rot").
    pose proof (find_sub_middle (s_ "+no_rot") p q 0) as N.
    destruct (find_sub _ _ 0); [reflexivity | congruence]. }
  assert (G : forall l r x, all l = Ok r -> In (Ok [x]) l -> In x r).
  { induction l as [|o l IH]; intros r x E I; [destruct I|]. cbn [all] in E.
    destruct o as [a0| | |]; cbn [obind] in E; try discriminate.
    destruct (all l) as [r0| | |] eqn:El; cbn [obind] in E; try discriminate. apply Ok_inj in E. subst r.
    apply in_or_app. destruct I as [I|I]; [apply Ok_inj in I; subst a0; left; now left | right; now apply IH]. }
  unfold from_proj4 in R. rewrite F in R.
  match type of R with context [all ?l] => destruct (all l) as [r| | |] eqn:E end; cbn [obind] in R; try discriminate.
  apply Ok_inj in R. subst ps'. right. apply (G _ _ _ E). cbn. tauto.
Qed.


Print Assumptions C96_pole_longitude.
Print Assumptions C96_pole_nonvacuous.
Print Assumptions C96_no_rotation.
