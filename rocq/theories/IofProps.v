(** C104: the driver for a file follows from the type name, else (for reading) from the first bytes, else
    from the file name; and what the driver is asked to open or write. *)
From Coq Require Import NArith ZArith Ascii String List Bool Lia.
From Verif Require Import Base StringModel StringProofs StringProps FilesModel FilesProps PbufModel PbufFileProps IofModel.
Import ListNotations.
Local Open Scope string_scope.
Local Open Scope list_scope.
Local Open Scope nat_scope.

(** ** texts *)
Lemma str_eqb_iff : forall a b, str_eqb a b = true <-> a = b.
Proof. intros a b. unfold str_eqb. destruct (list_eq_dec _ a b); split; congruence. Qed.

Lemma one_of_iff : forall l t, one_of l t = true <-> In t (map s_ l).
Proof.
  intros l t. unfold one_of. rewrite existsb_exists, in_map_iff. split; intros (s & A & B); exists s.
  - apply str_eqb_iff in B. now split.
  - split; [ assumption | ]. apply str_eqb_iff. congruence.
Qed.

Lemma one_of_not : forall l t, one_of l t = false <-> ~ In t (map s_ l).
Proof. intros l t. rewrite <- one_of_iff. destruct (one_of l t); split; congruence. Qed.

Lemma prefixed_iff : forall p s, prefixed p s = true <-> exists r, s = p ++ r.
Proof.
  induction p as [ | a p IH ]; intros s; cbn [prefixed app].
  - split; [ eauto | reflexivity ].
  - destruct s as [ | b s ]; [ split; [ discriminate | intros (r & R); discriminate ] | ].
    rewrite andb_true_iff, IH, Ascii.eqb_eq. split.
    + intros (-> & r & ->). now exists r.
    + intros (r & R). injection R as -> ->. eauto.
Qed.

(** ** the choice among any drivers *)
(** the driver with the highest mark above 0, the first of them in the order of the names *)
Theorem C104_choice : forall fs score, exists r, best (fun f => Ok (score f)) fs = Ok r /\
  match r with
  | Some f => exists before after, fs = before ++ f :: after /\ (0 < score f)%Z /\
                (forall g, In g before -> (score g < score f)%Z) /\ (forall g, In g after -> (score g <= score f)%Z)
  | None => forall g, In g fs -> (score g <= 0)%Z
  end.
Proof.
  intros fs score. unfold best, omap.
  assert (G : forall fs done st,
    match snd st with
    | Some f => exists before after, done = before ++ f :: after /\ fst st = score f /\ (0 < score f)%Z /\
                (forall g, In g before -> (score g < score f)%Z) /\ (forall g, In g after -> (score g <= score f)%Z)
    | None => fst st = 0%Z /\ forall g, In g done -> (score g <= 0)%Z
    end ->
    exists st', ofold (better (fun f => Ok (score f))) fs st = Ok st' /\
    match snd st' with
    | Some f => exists before after, done ++ fs = before ++ f :: after /\ fst st' = score f /\ (0 < score f)%Z /\
                (forall g, In g before -> (score g < score f)%Z) /\ (forall g, In g after -> (score g <= score f)%Z)
    | None => fst st' = 0%Z /\ forall g, In g (done ++ fs) -> (score g <= 0)%Z
    end).
  { clear. induction fs as [ | x fs IH ]; intros done st I; cbn [ofold].
    - exists st. split; [ reflexivity | ]. now rewrite app_nil_r.
    - unfold better at 1. cbn [obind].
      replace (done ++ x :: fs) with ((done ++ [x]) ++ fs) by now rewrite <- app_assoc.
      apply IH. clear IH. destruct st as [ b [ f | ] ]; cbn [fst snd] in *.
      + destruct I as (be & af & -> & -> & P & B & A).
        destruct (score f <? score x)%Z eqn:L; cbn [fst snd].
        * apply Z.ltb_lt in L. exists (be ++ f :: af), []. repeat split; [ lia | | intros g [] ].
          intros g K. apply in_app_iff in K. cbn in K.
          destruct K as [ K | [ <- | K ] ]; [ specialize (B _ K) | | specialize (A _ K) ]; lia.
        * apply Z.ltb_ge in L. exists be, (af ++ [x]). split; [ now rewrite <- app_assoc | ]. repeat split; auto.
          intros g K. apply in_app_iff in K. cbn in K. destruct K as [ K | [ <- | [] ] ]; [ now apply A | assumption ].
      + destruct I as (-> & I). destruct (0 <? score x)%Z eqn:L; cbn [fst snd].
        * apply Z.ltb_lt in L. exists done, []. repeat split; [ assumption | | intros g [] ].
          intros g K. specialize (I _ K). lia.
        * apply Z.ltb_ge in L. split; [ reflexivity | ]. intros g K. apply in_app_iff in K. cbn in K.
          destruct K as [ K | [ <- | [] ] ]; [ now apply I | assumption ]. }
  destruct (G fs [] (0%Z, None)) as (st & E & S).
  { cbn [snd fst]. split; [ reflexivity | intros g [] ]. }
  rewrite E. cbn [obind]. cbn [app] in S. exists (snd st). split; [ reflexivity | ].
  destruct (snd st) as [ f | ].
  - destruct S as (be & af & S1 & _ & S2). exists be, af. tauto.
  - tauto.
Qed.

(** ** the drivers of the project *)
Definition netcdf_types := ["nc4"; "nc"; "netcdf4"; "netcdf"; "nc4c"; "nc4classic"; "netcdf4classic"; "nc3"; "cdf"; "netcdf3"].
Definition grib_types := ["grb"; "grib"; "grb1"; "grib1"; "grb2"; "grib2"; "grbml"; "grbfp"].
Definition felt_types := ["flt"; "dat"; "felt"; "flt2"; "dat2"; "felt2"].

(** the type names of a driver *)
Definition type_of (id : string) (t : str) : Prop :=
  (id = "netcdf" /\ exists n, In n netcdf_types /\ (t = s_ n \/ t = s_ (n ++ "+rw"))) \/
  (id = "grib-api" /\ In t (map s_ grib_types)) \/
  (id = "felt" /\ In t (map s_ felt_types)) \/
  (id = "ncml" /\ t = s_ "ncml") \/
  (id = "null" /\ t = s_ "null").

Lemma rw_type_word : forall w, w <> [] -> forallb is_word w = true ->
  rw_type w = Some (w, false) /\ rw_type (w ++ s_ "+rw") = Some (w, true).
Proof.
  intros w NE W.
  assert (F : forall r i, find_from (fun c => Ascii.eqb c "+"%char) (w ++ r) i =
                          find_from (fun c => Ascii.eqb c "+"%char) r (length w + i)).
  { clear NE. induction w as [ | c w IH ]; intros r i; [ reflexivity | ]. cbn [forallb] in W. apply andb_true_iff in W.
    destruct W as (C & W). cbn [app find_from].
    replace (Ascii.eqb c "+"%char) with false.
    - rewrite IH by assumption. cbn [length]. f_equal. lia.
    - symmetry. apply Ascii.eqb_neq. intros ->. discriminate C. }
  unfold rw_type. split.
  - rewrite <- (app_nil_r w), F. cbn [find_from app]. rewrite app_nil_r, skipn_all.
    destruct w; [ congruence | ]. now rewrite W.
  - rewrite F. change (s_ "+rw") with ["+"; "r"; "w"]%char. cbn [find_from].
    change (Ascii.eqb "+" "+") with true. cbn iota. rewrite Nat.add_0_r.
    rewrite firstn_app, Nat.sub_diag, firstn_all. cbn [firstn]. rewrite app_nil_r.
    rewrite skipn_app, Nat.sub_diag, skipn_all. cbn [app skipn].
    destruct w as [ | c w ]; [ congruence | ]. rewrite W.
    now replace (str_eqb ["+"; "r"; "w"]%char ["+"; "r"; "w"]%char) with true by reflexivity.
Qed.

Lemma rw_type_inv : forall t w b, rw_type t = Some (w, b) -> t = w ++ (if b then s_ "+rw" else []) /\ w <> [].
Proof.
  intros t w b H. unfold rw_type in H.
  remember (match find_from (fun c => Ascii.eqb c "+"%char) t 0 with Some i => firstn i t | None => t end) as u.
  assert (T : t = u ++ skipn (length u) t).
  { destruct (find_from _ t 0); subst u.
    - rewrite firstn_length. destruct (Nat.le_ge_cases n (length t)).
      + rewrite Nat.min_l by assumption. now rewrite firstn_skipn.
      + rewrite Nat.min_r, firstn_all2, skipn_all by assumption. now rewrite app_nil_r.
    - rewrite skipn_all. now rewrite app_nil_r. }
  destruct u as [ | c u ]; [ discriminate | ]. destruct (forallb is_word (c :: u)); [ | discriminate ].
  remember (skipn (length (c :: u)) t) as r. destruct r as [ | x r ].
  - injection H as <- <-. now split.
  - destruct (str_eqb (x :: r) (s_ "+rw")) eqn:E; [ | discriminate ]. apply str_eqb_iff in E.
    injection H as <- <-. split; [ congruence | discriminate ].
Qed.

Lemma version_nonzero : forall t, getNetCDFVersion t <> 0%Z <-> In t (map s_ netcdf_types).
Proof.
  intros t. unfold getNetCDFVersion.
  destruct (one_of ["nc4"; "nc"; "netcdf4"; "netcdf"] t) eqn:A;
    [ apply one_of_iff in A; split; [ intros _ | lia ]; cbn [netcdf_types map In] in *; tauto | ].
  destruct (one_of ["nc4c"; "nc4classic"; "netcdf4classic"] t) eqn:B;
    [ apply one_of_iff in B; split; [ intros _ | lia ]; cbn [netcdf_types map In] in *; tauto | ].
  destruct (one_of ["nc3"; "cdf"; "netcdf3"] t) eqn:C;
    [ apply one_of_iff in C; split; [ intros _ | lia ]; cbn [netcdf_types map In] in *; tauto | ].
  apply one_of_not in A. apply one_of_not in B. apply one_of_not in C.
  split; [ congruence | ]. intros H. exfalso. cbn [netcdf_types map In] in *. tauto.
Qed.

Lemma nc_words : Forall (fun n => s_ n <> [] /\ forallb is_word (s_ n) = true) netcdf_types.
Proof. repeat constructor; discriminate. Qed.

Lemma s_app : forall a b, s_ (a ++ b) = s_ a ++ s_ b.
Proof. unfold s_. induction a as [ | c a IH ]; intros b; cbn; [ reflexivity | ]. now rewrite IH. Qed.

Lemma nc_type_iff : forall t, (nc_type t = 1%Z /\ type_of "netcdf" t) \/ (nc_type t = 0%Z /\ ~ type_of "netcdf" t).
Proof.
  intros t. unfold nc_type, matchFileType.
  assert (T : type_of "netcdf" t <-> exists w b, rw_type t = Some (w, b) /\ In w (map s_ netcdf_types)).
  { unfold type_of. split.
    - intros [ (_ & n & N & E) | [ (X & _) | [ (X & _) | [ (X & _) | (X & _) ] ] ] ]; try discriminate X.
      pose proof nc_words as W. rewrite Forall_forall in W. destruct (W n N) as (W1 & W2).
      destruct (rw_type_word _ W1 W2) as (R1 & R2). rewrite s_app in E.
      destruct E as [ -> | -> ]; eauto using in_map.
    - intros (w & b & R & I). left. split; [ reflexivity | ]. apply in_map_iff in I. destruct I as (n & <- & I).
      exists n. split; [ assumption | ]. destruct (rw_type_inv _ _ _ R) as (-> & _).
      rewrite s_app. destruct b; [ now right | left; apply app_nil_r ]. }
  destruct (rw_type t) as [ [ w b ] | ] eqn:R; cbn [fst].
  - pose proof (version_nonzero w) as V. destruct (getNetCDFVersion w =? 0)%Z eqn:Z0.
    + apply Z.eqb_eq in Z0. right. split; [ reflexivity | ]. rewrite T. intros (w' & b' & E & I).
      injection E as <- <-. now apply V in I.
    + apply Z.eqb_neq in Z0. left. split; [ reflexivity | ]. rewrite T. exists w, b. split; [ reflexivity | tauto ].
  - right. split; [ reflexivity | ]. rewrite T. intros (w' & b' & E & I). discriminate E.
Qed.

Lemma other_type_iff : forall f t, In f [felt; grib true; grib false; ncml; null] ->
  (matchFileTypeName f t = 1%Z /\ type_of (fid f) t) \/ (matchFileTypeName f t = 0%Z /\ ~ type_of (fid f) t).
Proof.
  intros f t H.
  assert (K : forall id l (z : Z), (forall t', type_of id t' <-> In t' (map s_ l)) -> (z = flag (one_of l t)) ->
              (z = 1%Z /\ type_of id t) \/ (z = 0%Z /\ ~ type_of id t)).
  { intros id l z E ->. destruct (one_of l t) eqn:O; [ left | right ]; (split; [ reflexivity | rewrite E ]).
    - now apply one_of_iff.
    - now apply one_of_not. }
  cbn [In] in H. destruct H as [ <- | [ <- | [ <- | [ <- | [ <- | [] ] ] ] ] ]; cbn [fid matchFileTypeName felt grib ncml null].
  - apply (K "felt" felt_types); [ | reflexivity ]. intros t'. unfold type_of. split.
    + intros [ (X & _) | [ (X & _) | [ (_ & X) | [ (X & _) | (X & _) ] ] ] ]; try discriminate X; exact X.
    + tauto.
  - apply (K "grib-api" grib_types).
    + intros t'. unfold type_of. split.
      * intros [ (X & _) | [ (_ & X) | [ (X & _) | [ (X & _) | (X & _) ] ] ] ]; try discriminate X; exact X.
      * tauto.
    + unfold grib_type, isGribType, isGrib2Type, grib_types, one_of. cbn [existsb].
      repeat match goal with |- context [str_eqb t ?u] => destruct (str_eqb t u) end; reflexivity.
  - apply (K "grib-api" grib_types).
    + intros t'. unfold type_of. split.
      * intros [ (X & _) | [ (_ & X) | [ (X & _) | [ (X & _) | (X & _) ] ] ] ]; try discriminate X; exact X.
      * tauto.
    + unfold grib_type, isGribType, isGrib2Type, grib_types, one_of. cbn [existsb].
      repeat match goal with |- context [str_eqb t ?u] => destruct (str_eqb t u) end; reflexivity.
  - apply (K "ncml" ["ncml"]); [ | reflexivity ]. intros t'. unfold type_of. cbn [map In]. split.
    + intros [ (X & _) | [ (X & _) | [ (X & _) | [ (_ & X) | (X & _) ] ] ] ]; try discriminate X; now left.
    + intros [ X | [] ]. subst. tauto.
  - apply (K "null" ["null"]); [ | reflexivity ]. intros t'. unfold type_of. cbn [map In]. split.
    + intros [ (X & _) | [ (X & _) | [ (X & _) | [ (X & _) | (_ & X) ] ] ] ]; try discriminate X; now left.
    + intros [ X | [] ]. subst. tauto.
Qed.

(** no type name belongs to two drivers *)
Definition all_types : list (string * string) :=
  map (fun n => (n, "netcdf")) netcdf_types ++ map (fun n => (n ++ "+rw", "netcdf")%string) netcdf_types ++
  map (fun n => (n, "grib-api")) grib_types ++ map (fun n => (n, "felt")) felt_types ++ [("ncml", "ncml"); ("null", "null")].

Lemma s_inj : forall a b, s_ a = s_ b -> a = b.
Proof.
  intros a b H. rewrite <- (string_of_list_ascii_of_string a), <- (string_of_list_ascii_of_string b).
  unfold s_ in H. now rewrite H.
Qed.

Lemma type_of_all : forall id t, type_of id t -> exists s, t = s_ s /\ In (s, id) all_types.
Proof.
  intros id t H. unfold all_types.
  destruct H as [ (-> & n & N & [ -> | -> ]) | [ (-> & H) | [ (-> & H) | [ (-> & ->) | (-> & ->) ] ] ] ].
  - exists n. split; [ reflexivity | ]. apply in_or_app. left. apply in_map_iff. eauto.
  - exists (n ++ "+rw")%string. split; [ reflexivity | ]. apply in_or_app. right. apply in_or_app. left.
    apply in_map_iff. eauto.
  - apply in_map_iff in H. destruct H as (n & <- & H). exists n. split; [ reflexivity | ].
    apply in_or_app. right. apply in_or_app. right. apply in_or_app. left. apply in_map_iff. eauto.
  - apply in_map_iff in H. destruct H as (n & <- & H). exists n. split; [ reflexivity | ].
    apply in_or_app. right. apply in_or_app. right. apply in_or_app. right. apply in_or_app. left. apply in_map_iff. eauto.
  - exists "ncml". split; [ reflexivity | ]. repeat (apply in_or_app; right). now left.
  - exists "null". split; [ reflexivity | ]. repeat (apply in_or_app; right). right. now left.
Qed.

Fixpoint distinct (l : list string) : bool :=
  match l with [] => true | a :: l' => negb (existsb (String.eqb a) l') && distinct l' end.
Lemma distinct_fst : forall (l : list (string * string)) s a b, distinct (map fst l) = true -> In (s, a) l -> In (s, b) l -> a = b.
Proof.
  induction l as [ | [k v] l IH ]; intros s a b D A B; [ destruct A | ]. cbn [map fst distinct] in D.
  apply andb_true_iff in D. destruct D as (D1 & D). apply negb_true_iff in D1.
  assert (N : forall x, ~ In (k, x) l).
  { intros x I. assert (existsb (String.eqb k) (map fst l) = true); [ | congruence ].
    apply existsb_exists. exists k. split; [ | apply String.eqb_refl ]. apply in_map_iff. now exists (k, x). }
  destruct A as [ A | A ], B as [ B | B ]; try congruence.
  - injection A as <- <-. now apply N in B.
  - injection B as <- <-. now apply N in A.
  - now apply (IH s).
Qed.

Lemma type_of_one : forall id id' t, type_of id t -> type_of id' t -> id = id'.
Proof.
  intros id id' t A B. apply type_of_all in A. apply type_of_all in B.
  destruct A as (s & -> & A), B as (s' & E & B). apply s_inj in E. subst s'.
  apply (distinct_fst all_types s); [ reflexivity | assumption | assumption ].
Qed.

Lemma not_typed_empty : forall id, ~ type_of id [].
Proof.
  intros id H. apply type_of_all in H. destruct H as (s & E & I). change [] with (s_ "") in E. apply s_inj in E. subst s.
  revert I. apply (fun (P : forall l : list (string * string), existsb (fun e => String.eqb (fst e) "") l = false -> ~ In ("", id) l) => P all_types eq_refl).
  intros l F I. assert (existsb (fun e => String.eqb (fst e) "") l = true); [ | congruence ].
  apply existsb_exists. exists ("", id). now split.
Qed.

(** ** the drivers that are there *)
Lemma installed_in : forall fe gr nc f, In f (installed fe gr nc) ->
  (f = netcdf /\ nc = true) \/ In f [felt; grib true; grib false; ncml; null].
Proof.
  intros fe gr nc f H. unfold installed in H. rewrite !in_app_iff in H.
  destruct H as [ H | [ H | [ H | [ H | H ] ] ] ].
  - destruct fe; [ | destruct H ]. destruct H as [ <- | [] ]. right. cbn. tauto.
  - destruct gr as [ [ | ] | ]; [ | | destruct H ]; destruct H as [ <- | [] ]; right; cbn; tauto.
  - destruct H as [ <- | [] ]. right. cbn. tauto.
  - destruct nc; [ | destruct H ]. destruct H as [ <- | [] ]. now left.
  - destruct H as [ <- | [] ]. right. cbn. tauto.
Qed.

Lemma installed_one : forall fe gr nc f g, In f (installed fe gr nc) -> In g (installed fe gr nc) -> fid f = fid g -> f = g.
Proof.
  intros fe gr nc f g F G E. unfold installed in *.
  destruct fe, gr as [ [ | ] | ], nc; cbn [app In] in F, G;
    repeat match goal with H : _ \/ _ |- _ => destruct H as [ H | H ] | H : False |- _ => destruct H end;
    subst; try reflexivity; discriminate E.
Qed.

Lemma installed_order : forall fe gr nc be f af, installed fe gr nc = be ++ f :: af -> fid f = "netcdf" ->
  forall g, In g af -> fid g = "null".
Proof.
  intros fe gr nc be f af E N g G.
  assert (K : exists be0, installed fe gr nc = be0 ++ (if nc then [netcdf] else []) ++ [null]
              /\ forall x, In x be0 -> fid x <> "netcdf").
  { exists ((if fe then [felt] else []) ++ match gr with Some pb => [grib pb] | None => [] end ++ [ncml]). split.
    - unfold installed. now rewrite <- !app_assoc.
    - destruct fe, gr as [ [ | ] | ]; cbn [app In]; intros x X;
        repeat match goal with H : _ \/ _ |- _ => destruct H as [ H | H ] | H : False |- _ => destruct H end;
        subst; discriminate. }
  destruct K as (be0 & K & B). rewrite K in E. clear K. revert be E B. induction be0 as [ | x be0 IH ]; intros be E B.
  - destruct nc; cbn [app] in E.
    + destruct be as [ | y be ]; cbn [app] in E.
      * injection E as _ <-. destruct G as [ <- | [] ]. reflexivity.
      * injection E as _ E. destruct be as [ | z be ]; cbn [app] in E.
        -- injection E as <- <-. discriminate N.
        -- injection E as _ E. now destruct be.
    + destruct be as [ | y be ]; cbn [app] in E.
      * injection E as <- <-. discriminate N.
      * injection E as _ E. now destruct be.
  - destruct be as [ | y be ]; cbn [app] in E.
    + injection E as <- _. exfalso. apply (B x); [ now left | exact N ].
    + injection E as _ E. apply (IH be E). intros z Z. apply B. now right.
Qed.

Lemma type_score : forall fe gr nc f t, In f (installed fe gr nc) ->
  (matchFileTypeName f t = 1%Z /\ type_of (fid f) t) \/ (matchFileTypeName f t = 0%Z /\ ~ type_of (fid f) t).
Proof.
  intros fe gr nc f t H. destruct (installed_in _ _ _ _ H) as [ (-> & _) | I ].
  - exact (nc_type_iff t).
  - now apply other_type_iff.
Qed.

Lemma by_type : forall fe gr nc t,
  (forall f, In f (installed fe gr nc) -> type_of (fid f) t -> findFactoryFromFileType (installed fe gr nc) t = Ok (Some f)) /\
  ((forall f, In f (installed fe gr nc) -> ~ type_of (fid f) t) -> findFactoryFromFileType (installed fe gr nc) t = Ok None).
Proof.
  intros fe gr nc t. unfold findFactoryFromFileType.
  destruct (C104_choice (installed fe gr nc) (fun f => matchFileTypeName f t)) as (r & -> & R). split.
  - intros f F T. destruct r as [ g | ].
    + destruct R as (be & af & E & P & _).
      assert (G : In g (installed fe gr nc)) by (rewrite E; apply in_or_app; right; now left).
      destruct (type_score _ _ _ g t G) as [ (_ & T') | (Z & _) ]; [ | lia ].
      do 2 f_equal. eapply installed_one; eauto using type_of_one.
    + specialize (R f F). destruct (type_score _ _ _ f t F) as [ (Z & _) | (_ & N) ]; [ lia | now apply N in T ].
  - intros N. destruct r as [ g | ]; [ | reflexivity ]. destruct R as (be & af & E & P & _).
    assert (G : In g (installed fe gr nc)) by (rewrite E; apply in_or_app; right; now left).
    destruct (type_score _ _ _ g t G) as [ (_ & T') | (Z & _) ]; [ | lia ]. now apply N in T'.
Qed.

(** a type name of an installed driver decides, whatever the name and the content of the file *)
Theorem C104_by_type : forall fe gr nc w t n wr f, In f (installed fe gr nc) -> type_of (fid f) t ->
  findFactory w (installed fe gr nc) t n wr = Ok (Some f).
Proof.
  intros fe gr nc w t n wr f F T. unfold findFactory. destruct (by_type fe gr nc t) as (A & _).
  destruct t as [ | c t ]; [ now apply not_typed_empty in T | ]. rewrite (A f F T). reflexivity.
Qed.

(** any other type name is as good as none *)
Theorem C104_untyped : forall fe gr nc w t n wr, (forall f, In f (installed fe gr nc) -> ~ type_of (fid f) t) ->
  findFactory w (installed fe gr nc) t n wr = findFactory w (installed fe gr nc) [] n wr.
Proof.
  intros fe gr nc w t n wr H. unfold findFactory. destruct (by_type fe gr nc t) as (_ & B).
  destruct t as [ | c t ]; [ reflexivity | ]. rewrite (B H). reflexivity.
Qed.

(** ** the first bytes *)
Definition starts_by (p : str) (bytes : str) : Prop := exists r, bytes = p ++ r.
Definition magic_of (pb : bool) (id : string) (bytes : str) : Prop :=
  (id = "netcdf" /\ (starts_by ["137"; "H"; "D"; "F"; "013"; "010"; "026"]%char bytes \/
                     starts_by ["C"; "D"; "F"; "001"]%char bytes)) \/
  (id = "grib-api" /\ (starts_by (s_ "GRIB") bytes \/
                       pb = true /\ exists x, starts_by (["F"; "M"; "X"; "I"; "D"; "X"; "000"; x; "G"; "000"]%char) bytes)).
(** how much of a file is read *)
Definition header (gr : option bool) (nc : bool) : nat :=
  match gr, nc with Some true, _ => 12 | _, true => 7 | Some false, false => 4 | None, false => 0 end.
Definition with_pb (gr : option bool) : bool := match gr with Some true => true | _ => false end.
(** where the bytes of a file are *)
Definition place (n p : str) : Prop :=
  n = s_ "file:" ++ p \/ (n = p /\ ~ starts_by (s_ "file:") n).

Lemma place_reader : forall n p, place n p <-> reader_for n = p.
Proof.
  intros n p. unfold reader_for, place.
  destruct (prefixed (s_ "http://") n || prefixed (s_ "https://") n) eqn:H.
  - assert (N : forall r, n <> s_ "file:" ++ r).
    { intros r ->. discriminate H. }
    split; [ intros [ E | (E & _) ]; [ now apply N in E | assumption ] | ].
    intros ->. right. split; [ reflexivity | ]. intros (r & E). now apply N in E.
  - destruct (prefixed (s_ "file:") n) eqn:F.
    + apply prefixed_iff in F. destruct F as (r & ->). cbn [skipn app s_ list_ascii_of_string]. split.
      * intros [ E | (_ & E) ]; [ cbn in E; congruence | ]. exfalso. apply E. now exists r.
      * intros ->. now left.
    + assert (N : ~ starts_by (s_ "file:") n) by (intros E; apply prefixed_iff in E; congruence).
      split; [ intros [ E | (E & _) ]; [ exfalso; apply N; now exists p | assumption ] | ].
      intros ->. now right.
Qed.

Lemma header_size : forall fe gr nc,
  fold_left (fun m f => Nat.max m (matchMagicSize f)) (installed fe gr nc) 0 = header gr nc.
Proof. intros [ | ] [ [ | ] | ] [ | ]; reflexivity. Qed.

Lemma same_bytes_ok : forall want magic, length want <= length magic -> same_bytes want magic = Ok (prefixed want magic).
Proof.
  induction want as [ | a want IH ]; intros magic L; cbn [same_bytes prefixed]; [ reflexivity | ].
  destruct magic as [ | b magic ]; cbn [length] in L; [ lia | ].
  destruct (Ascii.eqb a b); cbn [andb]; [ apply IH; lia | reflexivity ].
Qed.

Lemma prefixed_firstn : forall p s n, length p <= n -> prefixed p (firstn n s) = prefixed p s.
Proof.
  induction p as [ | a p IH ]; intros s n L; cbn [prefixed]; [ reflexivity | ]. cbn [length] in L.
  destruct n as [ | n ]; [ lia | ]. destruct s as [ | b s ]; cbn [firstn]; [ reflexivity | ]. rewrite IH by lia. reflexivity.
Qed.

Lemma grib_word : forall magic, 4 <= length magic -> strncmp_eq magic (s_ "GRIB") 4 = prefixed (s_ "GRIB") magic.
Proof.
  intros magic L. do 4 (destruct magic as [ | ? magic ]; [ cbn [length] in L; lia | ]).
  cbn [strncmp_eq s_ list_ascii_of_string prefixed].
  repeat match goal with
  | |- context [Ascii.eqb ?a ?c] => lazymatch c with "000"%char => fail | _ => idtac end;
      rewrite (Ascii.eqb_sym a c); destruct (Ascii.eqb_spec c a) as [ <- | ? ]; cbn [andb]; [ | reflexivity ]
  end. destruct magic; reflexivity.
Qed.

Lemma magic_score : forall fe gr nc bytes f, header gr nc <= length bytes -> In f (installed fe gr nc) ->
  exists s, matchMagic f (firstn (header gr nc) bytes) = Ok s /\
    ((s = 1%Z /\ magic_of (with_pb gr) (fid f) bytes) \/ (s = 0%Z /\ ~ magic_of (with_pb gr) (fid f) bytes)).
Proof.
  intros fe gr nc bytes f L F.
  assert (LB : length (firstn (header gr nc) bytes) = header gr nc) by (rewrite firstn_length; lia).
  unfold installed in F. rewrite !in_app_iff in F. destruct F as [ F | [ F | [ F | [ F | F ] ] ] ].
  - destruct fe; [ | destruct F ]. destruct F as [ <- | [] ]. exists 0%Z. split; [ reflexivity | ]. right. split; [ reflexivity | ].
    intros [ (X & _) | (X & _) ]; discriminate X.
  - destruct gr as [ pb | ]; [ | destruct F ]. destruct F as [ <- | [] ]. cbn [matchMagic grib fid]. unfold grib_match_magic.
    assert (H4 : 4 <= header (Some pb) nc) by (destruct pb, nc; cbn; lia).
    rewrite LB. replace (4 <=? header (Some pb) nc) with true by (symmetry; apply Nat.leb_le; exact H4). cbn [andb].
    rewrite grib_word by lia. rewrite prefixed_firstn by exact H4.
    destruct (prefixed (s_ "GRIB") bytes) eqn:G.
    + exists 1%Z. split; [ reflexivity | ]. left. split; [ reflexivity | ]. right. split; [ reflexivity | ]. left.
      now apply prefixed_iff.
    + assert (NG : ~ starts_by (s_ "GRIB") bytes) by (intros E; apply prefixed_iff in E; congruence).
      destruct pb; cbn [with_pb andb header] in *.
      2:{ exists 0%Z. split; [ reflexivity | ]. right. split; [ reflexivity | ].
          intros [ (X & _) | (_ & [ X | (X & _) ]) ]; [ discriminate X | now apply NG in X | discriminate X ]. }
      assert (K : check_magic (firstn 12 bytes) = true <->
                  exists x, starts_by (["F"; "M"; "X"; "I"; "D"; "X"; "000"; x; "G"; "000"]%char) bytes).
      { rewrite C102_magic. do 12 (destruct bytes as [ | ? bytes ]; [ cbn [length] in L; lia | ]). cbn [firstn skipn length]. split.
        - intros (_ & A & B). injection A as -> -> -> -> -> -> ->. injection B as -> ->. eexists. eexists. reflexivity.
        - intros (x & r & E). injection E as -> -> -> -> -> -> -> -> -> -> _. repeat split. lia. }
      destruct (check_magic (firstn 12 bytes)) eqn:C.
      * exists 1%Z. split; [ reflexivity | ]. left. split; [ reflexivity | ]. right. split; [ reflexivity | ]. right.
        split; [ reflexivity | ]. now apply K.
      * exists 0%Z. split; [ reflexivity | ]. right. split; [ reflexivity | ].
        intros [ (X & _) | (_ & [ X | (_ & X) ]) ]; [ discriminate X | now apply NG in X | ]. apply K in X. congruence.
  - destruct F as [ <- | [] ]. exists 0%Z. split; [ reflexivity | ]. right. split; [ reflexivity | ].
    intros [ (X & _) | (X & _) ]; discriminate X.
  - destruct nc; [ | destruct F ]. destruct F as [ <- | [] ]. cbn [matchMagic netcdf fid]. unfold nc_magic.
    assert (H7 : 7 <= header gr true) by (destruct gr as [ [ | ] | ]; cbn; lia).
    rewrite LB. replace (4 <=? header gr true) with true by (symmetry; apply Nat.leb_le; lia).
    replace (7 <=? header gr true) with true by (symmetry; apply Nat.leb_le; lia).
    rewrite !same_bytes_ok by (rewrite LB; cbn [length hdf5 netcdf1]; lia). cbn [obind].
    rewrite !prefixed_firstn by (cbn [length hdf5 netcdf1]; lia).
    destruct (prefixed hdf5 bytes) eqn:A; [ | destruct (prefixed netcdf1 bytes) eqn:B ].
    + exists 1%Z. split; [ reflexivity | ]. left. split; [ reflexivity | ]. left. split; [ reflexivity | ]. left. now apply prefixed_iff.
    + exists 1%Z. split; [ reflexivity | ]. left. split; [ reflexivity | ]. left. split; [ reflexivity | ]. right. now apply prefixed_iff.
    + exists 0%Z. split; [ reflexivity | ]. right. split; [ reflexivity | ].
      intros [ (_ & [ X | X ]) | (X & _) ]; [ | | discriminate X ]; apply prefixed_iff in X; unfold hdf5, netcdf1 in *; congruence.
  - destruct F as [ <- | [] ]. exists 0%Z. split; [ reflexivity | ]. right. split; [ reflexivity | ].
    intros [ (X & _) | (X & _) ]; discriminate X.
Qed.

Lemma magic_one : forall pb id id' bytes, magic_of pb id bytes -> magic_of pb id' bytes -> id = id'.
Proof.
  intros pb id id' bytes A B. unfold magic_of, starts_by in *.
  destruct A as [ (-> & A) | (-> & A) ], B as [ (-> & B) | (-> & B) ]; try reflexivity; exfalso;
  repeat match goal with
  | H : _ \/ _ |- _ => destruct H as [ H | H ]
  | H : _ /\ _ |- _ => destruct H
  | H : exists _, _ |- _ => destruct H
  end; subst; discriminate.
Qed.

Lemma best_ext : forall s1 s2 fs, (forall f, In f fs -> s1 f = s2 f) -> best s1 fs = best s2 fs.
Proof.
  intros s1 s2 fs H. unfold best. f_equal. generalize (0%Z, @None factory). revert H.
  induction fs as [ | x fs IH ]; intros H st; cbn [ofold]; [ reflexivity | ].
  unfold better at 1 3. rewrite (H x) by now left. destruct (s2 x); cbn [obind]; try reflexivity.
  apply IH. intros f F. apply H. now right.
Qed.

(** what a driver finds in the first bytes, as a number *)
Definition mark (buf : str) (f : factory) : Z := match matchMagic f buf with Ok s => s | _ => 0%Z end.

Lemma by_magic : forall fe gr nc w n p, place n p ->
  (forall bytes f, content w p = Some bytes -> header gr nc <= length bytes -> In f (installed fe gr nc) ->
     magic_of (with_pb gr) (fid f) bytes -> findFactoryFromMagic w (installed fe gr nc) n = Ok (Some f)) /\
  ((forall bytes, content w p = Some bytes -> header gr nc <= length bytes ->
      forall f, In f (installed fe gr nc) -> ~ magic_of (with_pb gr) (fid f) bytes) ->
   findFactoryFromMagic w (installed fe gr nc) n = Ok None).
Proof.
  intros fe gr nc w n p P. apply place_reader in P. unfold findFactoryFromMagic. rewrite P, header_size.
  destruct (content w p) as [ bytes | ]; [ | split; [ intros bytes f E; discriminate E | reflexivity ] ].
  destruct (length bytes <? header gr nc) eqn:L.
  - apply Nat.ltb_lt in L. split; [ | reflexivity ]. intros b f E. injection E as <-. lia.
  - apply Nat.ltb_ge in L.
    rewrite (best_ext _ (fun f => Ok (mark (firstn (header gr nc) bytes) f))).
    2:{ intros f F. unfold mark. destruct (magic_score fe gr nc bytes f L F) as (s & -> & _). reflexivity. }
    destruct (C104_choice (installed fe gr nc) (mark (firstn (header gr nc) bytes))) as (r & -> & R).
    assert (K : forall g, In g (installed fe gr nc) -> (0 < mark (firstn (header gr nc) bytes) g)%Z <-> magic_of (with_pb gr) (fid g) bytes).
    { intros g G. unfold mark. destruct (magic_score fe gr nc bytes g L G) as (s & -> & [ (-> & M) | (-> & M) ]);
        split; intros; try assumption; try lia; now apply M in H. }
    split.
    + intros b f E _ F M. injection E as <-. destruct r as [ g | ].
      * destruct R as (be & af & E & Q & _).
        assert (G : In g (installed fe gr nc)) by (rewrite E; apply in_or_app; right; now left).
        apply (K g G) in Q. do 2 f_equal. eapply installed_one; eauto using magic_one.
      * specialize (R f F). apply (K f F) in M. lia.
    + intros N. destruct r as [ g | ]; [ | reflexivity ]. destruct R as (be & af & E & Q & _).
      assert (G : In g (installed fe gr nc)) by (rewrite E; apply in_or_app; right; now left).
      apply (K g G) in Q. exfalso. exact (N bytes eq_refl L g G Q).
Qed.

(** for reading without a type name: the first bytes decide, whatever the name of the file *)
Theorem C104_by_magic : forall fe gr nc w n p bytes f, place n p -> content w p = Some bytes ->
  header gr nc <= length bytes -> In f (installed fe gr nc) -> magic_of (with_pb gr) (fid f) bytes ->
  findFactory w (installed fe gr nc) [] n false = Ok (Some f).
Proof.
  intros fe gr nc w n p bytes f P C L F M. destruct (by_magic fe gr nc w n p P) as (A & _).
  unfold findFactory. cbn [obind]. rewrite (A bytes f C L F M). reflexivity.
Qed.

(** a file that cannot be opened, that is too short or that starts with no known bytes is chosen by its
    name, as for writing *)
Theorem C104_no_magic : forall fe gr nc w n p, place n p ->
  (forall bytes, content w p = Some bytes -> header gr nc <= length bytes ->
     forall f, In f (installed fe gr nc) -> ~ magic_of (with_pb gr) (fid f) bytes) ->
  findFactory w (installed fe gr nc) [] n false = findFactory w (installed fe gr nc) [] n true.
Proof.
  intros fe gr nc w n p P N. destruct (by_magic fe gr nc w n p P) as (_ & B).
  unfold findFactory. cbn [obind]. rewrite (B N). reflexivity.
Qed.

(** the content of the files is not looked at for writing *)
Theorem C104_write_blind : forall fs w w' t n, create_writer w fs t n = create_writer w' fs t n.
Proof. intros. reflexivity. Qed.

(** ** the name *)
Definition url (n : str) : Prop := exists s r, In s ["http"; "https"; "dods"] /\ n = s_ s ++ s_ "://" ++ r.
Definition zarr (n : str) : Prop :=
  (forall c, In c n -> ~ line_break c) /\
  exists a b c d, n = s_ "file:" ++ a ++ s_ "#" ++ b ++ s_ "mode=" ++ c ++ s_ "zarr" ++ d.
Definition ext_nc (n : str) : Prop := In (getExtension n) [s_ "nc"; s_ "nc4"].
Definition there (fs : list factory) (id : string) : Prop := exists g, In g fs /\ fid g = id.
(** the drivers that know the extension as a type name; netcdf and null do not use it *)
Definition by_ext (fs : list factory) (id : string) (n : str) : Prop :=
  there fs id /\ id <> "netcdf" /\ id <> "null" /\ type_of id (getExtension n).
Definition name_of (fs : list factory) (id : string) (n : str) : Prop :=
  there fs id /\
  ((id = "netcdf" /\ (url n \/ ext_nc n \/ (zarr n /\ forall id', ~ by_ext fs id' n))) \/
   (by_ext fs id n /\ ~ (there fs "netcdf" /\ url n))).

Lemma behind_iff : forall p s r, p <> [] -> behind p s = Some r -> exists a, s = a ++ p ++ r.
Proof.
  intros p s r NE. revert r. induction s as [ | c s IH ]; intros r H; cbn [behind] in H.
  - destruct p; [ congruence | ]. discriminate H.
  - destruct (prefixed p (c :: s)) eqn:P.
    + apply prefixed_iff in P. destruct P as (q & P). rewrite P in H. rewrite skipn_app, skipn_all, Nat.sub_diag in H.
      injection H as <-. exists []. exact P.
    + destruct (IH r H) as (a & ->). now exists (c :: a).
Qed.

Lemma behind_longest : forall p a r, exists q x, behind p (a ++ p ++ r) = Some q /\ q = x ++ r.
Proof.
  intros p a r. induction a as [ | c a IH ]; cbn [app].
  - destruct (p ++ r) eqn:E.
    + apply app_eq_nil in E. destruct E as (-> & ->). exists [], []. now split.
    + rewrite <- E. exists r, []. split; [ | reflexivity ].
      assert (P : prefixed p (p ++ r) = true) by (apply prefixed_iff; eauto).
      rewrite E in *. unfold behind. rewrite P, <- E. rewrite skipn_app, skipn_all, Nat.sub_diag. reflexivity.
  - cbn [behind]. destruct (prefixed p (c :: a ++ p ++ r)) eqn:P; [ | exact IH ].
    exists (skipn (length p) (c :: a ++ p ++ r)).
    replace (c :: a ++ p ++ r) with ((c :: a ++ p) ++ r) by (cbn; now rewrite app_assoc).
    rewrite skipn_app. replace (length p - length (c :: a ++ p)) with 0 by (cbn [length]; rewrite app_length; lia).
    cbn [skipn]. eauto.
Qed.

Lemma in_order_more : forall ps x s, in_order ps s = true -> in_order ps (x ++ s) = true.
Proof.
  induction ps as [ | p ps IH ]; intros x s H; [ reflexivity | ]. cbn [in_order] in *.
  destruct (behind p s) as [ r | ] eqn:B; [ | discriminate ].
  destruct p as [ | c p ].
  - assert (E : forall u, behind [] u = Some u) by (intros [ | ? ? ]; reflexivity). rewrite E in *.
    injection B as <-. now apply IH.
  - apply behind_iff in B; [ | discriminate ]. destruct B as (a & ->).
    destruct (behind_longest (c :: p) (x ++ a) r) as (q & y & E & ->). rewrite <- app_assoc in E. rewrite E. now apply IH.
Qed.

Lemma zarr_iff : forall n, isNetCDFZarrFile n = true <-> zarr n.
Proof.
  intros n. unfold isNetCDFZarrFile, zarr. rewrite !andb_true_iff, negb_true_iff, no_newline. split.
  - intros ((F & L) & O). split; [ exact L | ]. apply prefixed_iff in F. destruct F as (r & ->).
    change (skipn 5 (s_ "file:" ++ r)) with r in O. cbn [in_order] in O.
    destruct (behind (s_ "#") r) as [ r1 | ] eqn:B1; [ | discriminate ].
    destruct (behind (s_ "mode=") r1) as [ r2 | ] eqn:B2; [ | discriminate ].
    destruct (behind (s_ "zarr") r2) as [ r3 | ] eqn:B3; [ | discriminate ].
    apply behind_iff in B1; [ | discriminate ]. apply behind_iff in B2; [ | discriminate ]. apply behind_iff in B3; [ | discriminate ].
    destruct B1 as (a & ->), B2 as (b & ->), B3 as (c & ->). now exists a, b, c, r3.
  - intros (L & a & b & c & d & ->). split; [ split; [ | exact L ] | ].
    + apply prefixed_iff. eauto.
    + match goal with |- in_order _ (skipn 5 (s_ "file:" ++ ?r)) = true => change (skipn 5 (s_ "file:" ++ r)) with r end.
      cbn [in_order]. destruct (behind_longest (s_ "#") a (b ++ s_ "mode=" ++ c ++ s_ "zarr" ++ d)) as (q1 & x1 & -> & ->).
      change (in_order [s_ "mode="; s_ "zarr"] (x1 ++ b ++ s_ "mode=" ++ c ++ s_ "zarr" ++ d) = true). apply in_order_more.
      cbn [in_order]. destruct (behind_longest (s_ "mode=") b (c ++ s_ "zarr" ++ d)) as (q2 & x2 & -> & ->).
      change (in_order [s_ "zarr"] (x2 ++ c ++ s_ "zarr" ++ d) = true). apply in_order_more.
      cbn [in_order]. destruct (behind_longest (s_ "zarr") c d) as (q3 & x3 & -> & ->). reflexivity.
Qed.

Lemma url_iff : forall n, (match url_scheme n with Some w => one_of ["https"; "http"; "dods"] w | None => false end) = true <-> url n.
Proof.
  intros n. unfold url_scheme, url.
  assert (WP : exists r, n = word_prefix n ++ r).
  { induction n as [ | c n IH ]; [ now exists [] | ]. cbn [word_prefix]. destruct (is_word c); [ | now exists (c :: n) ].
    destruct IH as (r & IH). exists r. cbn [app]. now rewrite <- IH. }
  split.
  - destruct WP as (r & E). destruct (word_prefix n) as [ | c u ] eqn:W; [ discriminate | ].
    destruct (prefixed _ _) eqn:P; [ | discriminate ]. intros O. apply one_of_iff in O.
    rewrite E in P. rewrite skipn_app, skipn_all, Nat.sub_diag in P. apply prefixed_iff in P. destruct P as (q & P). cbn [app skipn] in P. subst r.
    apply in_map_iff in O. destruct O as (s & S & O). exists s, q. split; [ cbn [In] in *; tauto | ]. now rewrite S.
  - intros (s & r & S & ->).
    assert (W : forall u, forallb is_word u = true -> word_prefix (u ++ s_ "://" ++ r) = u).
    { induction u as [ | c u IH ]; [ reflexivity | ]. cbn [forallb app word_prefix]. intros H. apply andb_true_iff in H.
      destruct H as (-> & H). now rewrite IH. }
    rewrite W by (cbn [In] in S; destruct S as [ <- | [ <- | [ <- | [] ] ] ]; reflexivity).
    destruct (s_ s) as [ | c u ] eqn:E; [ cbn [In] in S; destruct S as [ <- | [ <- | [ <- | [] ] ] ]; discriminate E | ].
    rewrite skipn_app, skipn_all, Nat.sub_diag. cbn [app skipn].
    replace (prefixed (s_ "://") (s_ "://" ++ r)) with true by (symmetry; apply prefixed_iff; eauto).
    apply one_of_iff. rewrite <- E. apply in_map. cbn [In] in *. tauto.
Qed.

Lemma nc_name_cases : forall n,
  (nc_name n = 1%Z /\ ext_nc n) \/ (nc_name n = 2%Z /\ ~ ext_nc n /\ url n) \/
  (nc_name n = 1%Z /\ ~ ext_nc n /\ ~ url n /\ zarr n) \/ (nc_name n = 0%Z /\ ~ ext_nc n /\ ~ url n /\ ~ zarr n).
Proof.
  intros n. unfold nc_name. pose proof (one_of_iff ["nc"; "nc4"] (getExtension n)) as E.
  change (map s_ ["nc"; "nc4"]) with [s_ "nc"; s_ "nc4"] in E. fold (ext_nc n) in E.
  pose proof (url_iff n) as U. pose proof (zarr_iff n) as Z.
  destruct (one_of ["nc"; "nc4"] (getExtension n)); [ left; tauto | ].
  assert (~ ext_nc n) by (intros X; apply E in X; discriminate).
  destruct (match url_scheme n with Some _ => _ | None => _ end); [ right; left; tauto | ].
  assert (~ url n) by (intros X; apply U in X; discriminate).
  destruct (isNetCDFZarrFile n); [ right; right; left; tauto | ].
  assert (~ zarr n) by (intros X; apply Z in X; discriminate). right; right; right. tauto.
Qed.

Lemma other_name : forall fe gr nc f n, In f (installed fe gr nc) -> fid f <> "netcdf" ->
  (matchFileName f n = 1%Z /\ by_ext (installed fe gr nc) (fid f) n) \/
  (matchFileName f n = 0%Z /\ ~ by_ext (installed fe gr nc) (fid f) n).
Proof.
  intros fe gr nc f n F NN.
  assert (T : there (installed fe gr nc) (fid f)) by (now exists f).
  destruct (installed_in _ _ _ _ F) as [ (-> & _) | I ]; [ now destruct NN | ].
  destruct (string_dec (fid f) "null") as [ N | N ].
  - right. split.
    + cbn [In] in I. destruct I as [ <- | [ <- | [ <- | [ <- | [ <- | [] ] ] ] ] ]; try discriminate N. reflexivity.
    + intros (_ & _ & X & _). contradiction.
  - destruct (other_type_iff f (getExtension n) I) as [ (S & K) | (S & K) ]; [ left | right ]; (split; [ | unfold by_ext; tauto ]);
      rewrite <- S; cbn [In] in I; destruct I as [ <- | [ <- | [ <- | [ <- | [ <- | [] ] ] ] ] ]; try reflexivity; now destruct N.
Qed.

Lemma ext_nc_only : forall n id, ext_nc n -> type_of id (getExtension n) -> id = "netcdf".
Proof.
  intros n id E T. apply (type_of_one id "netcdf" (getExtension n) T).
  left. split; [ reflexivity | ]. destruct E as [ <- | [ <- | [] ] ]; [ exists "nc" | exists "nc4" ]; (split; [ cbn; tauto | now left ]).
Qed.

(** no type name and no known bytes: URLs and the extensions nc and nc4 are netcdf, else the extension is
    taken as type name (but for the netcdf types and null), else the names of zarr files are netcdf *)
Theorem C104_by_name : forall fe gr nc w n f,
  findFactory w (installed fe gr nc) [] n true = Ok (Some f) <->
  In f (installed fe gr nc) /\ name_of (installed fe gr nc) (fid f) n.
Proof.
  intros fe gr nc w n f. unfold findFactory. cbn [obind]. unfold findFactoryFromFileName.
  destruct (C104_choice (installed fe gr nc) (fun f => matchFileName f n)) as (r & -> & R).
  assert (NC : forall g, In g (installed fe gr nc) -> fid g = "netcdf" -> g = netcdf).
  { intros g G E. destruct (installed_in _ _ _ _ G) as [ (-> & _) | I ]; [ reflexivity | ]. exfalso.
    cbn [In] in I. destruct I as [ <- | [ <- | [ <- | [ <- | [ <- | [] ] ] ] ] ]; discriminate E. }
  (* a driver that the rule names has a mark *)
  assert (POS : forall g, In g (installed fe gr nc) -> name_of (installed fe gr nc) (fid g) n -> (0 < matchFileName g n)%Z).
  { intros g G (_ & [ (E & K) | (K & _) ]).
    - rewrite (NC g G E). change (matchFileName netcdf n) with (nc_name n).
      destruct (nc_name_cases n) as [ (-> & _) | [ (-> & _) | [ (-> & _) | (_ & A & B & C) ] ] ]; try lia. tauto.
    - destruct (other_name fe gr nc g n G) as [ (-> & _) | (_ & X) ]; [ apply K | lia | contradiction ]. }
  (* one at most *)
  assert (ONE : forall g h, In g (installed fe gr nc) -> In h (installed fe gr nc) ->
     name_of (installed fe gr nc) (fid g) n -> name_of (installed fe gr nc) (fid h) n -> g = h).
  { intros g h G H (_ & A) (_ & B). apply (installed_one fe gr nc); try assumption.
    destruct A as [ (E & A) | (A & A') ], B as [ (E' & B) | (B & B') ].
    - congruence.
    - exfalso. assert (there (installed fe gr nc) "netcdf") by (exists g; now split).
      destruct A as [ A | [ A | (_ & A) ] ]; [ tauto | | now apply (A (fid h)) ].
      destruct B as (_ & B1 & _ & B2). apply B1. now apply (ext_nc_only n).
    - exfalso. assert (there (installed fe gr nc) "netcdf") by (exists h; now split).
      destruct B as [ B | [ B | (_ & B) ] ]; [ tauto | | now apply (B (fid g)) ].
      destruct A as (_ & A1 & _ & A2). apply A1. now apply (ext_nc_only n).
    - destruct A as (_ & _ & _ & A), B as (_ & _ & _ & B). now apply (type_of_one _ _ (getExtension n)). }
  destruct r as [ g | ].
  - destruct R as (be & af & E & P & BE & AF).
    assert (G : In g (installed fe gr nc)) by (rewrite E; apply in_or_app; right; now left).
    assert (NAMED : name_of (installed fe gr nc) (fid g) n).
    { split; [ now exists g | ]. destruct (string_dec (fid g) "netcdf") as [ N | N ].
      - left. split; [ exact N | ]. rewrite (NC g G N) in *. change (matchFileName netcdf n) with (nc_name n) in *.
        destruct (nc_name_cases n) as [ (_ & A) | [ (_ & _ & A) | [ (S & _ & _ & Z) | (S & _) ] ] ]; [ tauto | tauto | | lia ].
        right. right. split; [ exact Z | ]. intros id' ((h & H & <-) & H1 & H2 & H3).
        destruct (other_name fe gr nc h n H H1) as [ (T & _) | (_ & T) ].
        2:{ apply T. split; [ now exists h | tauto ]. }
        rewrite E in H. apply in_app_iff in H. destruct H as [ H | [ <- | H ] ].
        + specialize (BE h H). cbn beta in BE. lia.
        + now apply H1.
        + apply H2. exact (installed_order fe gr nc be netcdf af E eq_refl h H).
      - right. destruct (other_name fe gr nc g n G N) as [ (S & K) | (S & _) ]; [ | lia ]. split; [ exact K | ].
        intros ((h & H & E') & U). assert (h = netcdf) by (now apply NC). subst h.
        assert (S2 : nc_name n = 2%Z).
        { destruct (nc_name_cases n) as [ (_ & A) | [ (A & _) | [ (_ & _ & A & _) | (_ & _ & A & _) ] ] ]; try contradiction; try assumption.
          exfalso. destruct K as (_ & _ & _ & K). apply N. now apply (ext_nc_only n). }
        rewrite E in H. apply in_app_iff in H. destruct H as [ H | [ H | H ] ].
        + specialize (BE _ H). change (matchFileName netcdf n) with (nc_name n) in BE. lia.
        + subst g. now apply N.
        + specialize (AF _ H). change (matchFileName netcdf n) with (nc_name n) in AF. lia. }
    split.
    + intros X. injection X as <-. now split.
    + intros (F & K). do 2 f_equal. now apply ONE.
  - split; [ discriminate | ]. intros (F & K). specialize (R f F). specialize (POS f F K). cbn beta in *. lia.
Qed.

(** nothing goes wrong in the search: a driver or none *)
Theorem C104_total : forall fe gr nc w t n wr, exists r, findFactory w (installed fe gr nc) t n wr = Ok r.
Proof.
  intros fe gr nc w t n wr. unfold findFactory.
  assert (T : exists r, (match t with [] => Ok None | _ => findFactoryFromFileType (installed fe gr nc) t end) = Ok r).
  { destruct t; [ eauto | ]. unfold findFactoryFromFileType.
    destruct (C104_choice (installed fe gr nc) (fun f => matchFileTypeName f (a :: t))) as (r & -> & _). eauto. }
  destruct T as (r & ->). cbn [obind]. destruct r; [ eauto | ].
  assert (M : exists r, (if wr then Ok None else findFactoryFromMagic w (installed fe gr nc) n) = Ok r).
  { destruct wr; [ eauto | ]. unfold findFactoryFromMagic. rewrite header_size.
    destruct (content w (reader_for n)) as [ bytes | ]; [ | eauto ].
    destruct (length bytes <? header gr nc) eqn:L; [ eauto | ]. apply Nat.ltb_ge in L.
    rewrite (best_ext _ (fun f => Ok (mark (firstn (header gr nc) bytes) f))).
    2:{ intros f F. unfold mark. destruct (magic_score fe gr nc bytes f L F) as (s & -> & _). reflexivity. }
    destruct (C104_choice (installed fe gr nc) (mark (firstn (header gr nc) bytes))) as (r & -> & _). eauto. }
  destruct M as (r & ->). cbn [obind]. destruct r; [ eauto | ]. unfold findFactoryFromFileName.
  destruct (C104_choice (installed fe gr nc) (fun f => matchFileName f n)) as (r & -> & _). eauto.
Qed.

(** ** what is opened and written *)
(** without a driver: an exception; otherwise the driver is asked *)
Theorem C104_create : forall w fs t n config args r wr, findFactory w fs t n wr = Ok r ->
  (wr = false -> create w fs t n config args = match r with Some f => createReader f w t n config args | None => Throw end) /\
  (wr = false -> create_rw w fs t n config = match r with Some f => createReaderWriter f t n config | None => Throw end) /\
  (wr = true -> create_writer w fs t n = match r with Some f => createWriter f t n | None => Throw end).
Proof.
  intros w fs t n config args r wr H. unfold create, create_rw, create_writer.
  repeat split; intros ->; rewrite H; reflexivity.
Qed.

(** a type name of word characters with +rw *)
Definition rw_name (t : str) : Prop := exists v, v <> [] /\ Forall word_char v /\ t = v ++ s_ "+rw".

Lemma rw_flag : forall t, snd (matchFileType t) = true <-> rw_name t.
Proof.
  intros t. unfold matchFileType, rw_name. split.
  - destruct (rw_type t) as [ [ v b ] | ] eqn:R; cbn [snd]; [ | discriminate ]. intros ->.
    destruct (rw_type_inv _ _ _ R) as (E & NE). exists v. split; [ exact NE | ]. split; [ | exact E ].
    unfold rw_type in R. remember (match find_from _ t 0 with Some i => firstn i t | None => t end) as u.
    destruct u as [ | c u ]; [ discriminate | ]. destruct (forallb is_word (c :: u)) eqn:W; [ | discriminate ].
    assert (v = c :: u) by (destruct (skipn _ t); [ | destruct (str_eqb _ _); [ | discriminate ] ]; injection R; congruence). subst v.
    apply Forall_forall. intros x X. apply is_word_spec. rewrite forallb_forall in W. now apply W.
  - intros (v & NE & W & ->). destruct (rw_type_word v NE) as (_ & ->); [ | reflexivity ].
    apply forallb_forall. intros x X. apply is_word_spec. rewrite Forall_forall in W. now apply W.
Qed.

(** reading netcdf: which file is opened *)
Theorem C104_netcdf_open : forall w t n config args r, ~ rw_name t -> createReader netcdf w t n config args = Ok r <->
  (exists pattern, n = s_ "glob:" ++ pattern /\ r = OpenJoin (globbed w pattern) config) \/
  (~ starts_by (s_ "glob:") n /\ exists file, r = OpenNetcdf file false config /\
     ((zarr n /\ file = n) \/
      (exists p, ~ zarr n /\ n = s_ "file:" ++ p /\ ~ starts_by (s_ "dods:") p /\ file = p) \/
      (exists p, ~ zarr n /\ n = s_ "file:" ++ s_ "dods:" ++ p /\ file = s_ "http:" ++ p) \/
      (exists p, n = s_ "dods:" ++ p /\ file = s_ "http:" ++ p) \/
      (~ starts_by (s_ "file:") n /\ ~ starts_by (s_ "dods:") n /\ file = n))).
Proof.
  intros w t n config args r RW. cbn [createReader netcdf]. unfold nc_reader.
  assert (snd (matchFileType t) = false) as ->.
  { destruct (snd (matchFileType t)) eqn:E; [ | reflexivity ]. apply rw_flag in E. contradiction. }
  assert (NP : forall p s, prefixed p s = false -> ~ starts_by p s) by (intros p s E X; apply prefixed_iff in X; congruence).
  assert (GL : forall p, ~ starts_by (s_ "glob:") (s_ "file:" ++ p)) by (intros p (q & Q); discriminate Q).
  assert (GD : forall p, ~ starts_by (s_ "glob:") (s_ "dods:" ++ p)) by (intros p (q & Q); discriminate Q).
  assert (FD : forall p, ~ starts_by (s_ "file:") (s_ "dods:" ++ p)) by (intros p (q & Q); discriminate Q).
  assert (DF : forall p q, s_ "dods:" ++ p <> s_ "file:" ++ q) by (intros p q Q; discriminate Q).
  assert (ZF : zarr n -> exists p, n = s_ "file:" ++ p) by (intros (_ & a & b & c & d & E); eauto).
  assert (INJ : forall u p q, s_ u ++ p = s_ u ++ q -> p = q) by (intros u p q; apply app_inv_head).
  destruct (prefixed (s_ "glob:") n) eqn:G.
  { apply prefixed_iff in G. destruct G as (p & ->). change (skipn 5 (s_ "glob:" ++ p)) with p. split.
    - intros E. injection E as <-. left. eauto.
    - intros [ (q & E & ->) | (N & _) ]; [ apply INJ in E; now subst | ]. exfalso. apply N. now exists p. }
  apply NP in G. unfold nc_file. pose proof (zarr_iff n) as Z.
  transitivity (r = OpenNetcdf (nc_file n) false config).
  { unfold nc_file. split; [ intros E; injection E as <-; reflexivity | intros ->; reflexivity ]. }
  assert (K : forall file, file = nc_file n <->
     ((zarr n /\ file = n) \/
      (exists p, ~ zarr n /\ n = s_ "file:" ++ p /\ ~ starts_by (s_ "dods:") p /\ file = p) \/
      (exists p, ~ zarr n /\ n = s_ "file:" ++ s_ "dods:" ++ p /\ file = s_ "http:" ++ p) \/
      (exists p, n = s_ "dods:" ++ p /\ file = s_ "http:" ++ p) \/
      (~ starts_by (s_ "file:") n /\ ~ starts_by (s_ "dods:") n /\ file = n))).
  { intros file. unfold nc_file. destruct (isNetCDFZarrFile n) eqn:ZB.
    - assert (ZN : zarr n) by now apply Z. destruct (ZF ZN) as (p & E). cbn [negb andb].
      replace (prefixed (s_ "dods:") n) with false by (rewrite E; reflexivity). split.
      + intros ->. left. now split.
      + intros [ (_ & X) | [ (q & X & _) | [ (q & X & _) | [ (q & X & _) | (X & _) ] ] ] ]; try contradiction; try assumption.
        * exfalso. rewrite E in X. symmetry in X. now apply DF in X.
        * exfalso. apply X. now exists p.
    - assert (ZN : ~ zarr n) by (intros X; apply Z in X; congruence). cbn [negb andb].
      destruct (prefixed (s_ "file:") n) eqn:F.
      + apply prefixed_iff in F. destruct F as (p & ->). change (skipn 5 (s_ "file:" ++ p)) with p.
        destruct (prefixed (s_ "dods:") p) eqn:D.
        * apply prefixed_iff in D. destruct D as (q & ->). change (skipn 5 (s_ "dods:" ++ q)) with q. split.
          -- intros ->. right. right. left. exists q. repeat split. exact ZN.
          -- intros [ (X & _) | [ (x & _ & E & X & _) | [ (x & _ & E & ->) | [ (x & E & _) | (X & _) ] ] ] ]; try contradiction.
             ++ apply INJ in E. subst x. exfalso. apply X. now exists q.
             ++ apply INJ, INJ in E. now subst.
             ++ symmetry in E. now apply DF in E.
             ++ exfalso. apply X. eexists. reflexivity.
        * apply NP in D. split.
          -- intros ->. right. left. exists p. tauto.
          -- intros [ (X & _) | [ (x & _ & E & _ & ->) | [ (x & _ & E & _) | [ (x & E & _) | (X & _) ] ] ] ]; try contradiction.
             ++ apply INJ in E. now subst.
             ++ apply INJ in E. subst p. exfalso. apply D. now exists x.
             ++ symmetry in E. now apply DF in E.
             ++ exfalso. apply X. now exists p.
      + apply NP in F. destruct (prefixed (s_ "dods:") n) eqn:D.
        * apply prefixed_iff in D. destruct D as (q & ->). change (skipn 5 (s_ "dods:" ++ q)) with q. split.
          -- intros ->. right. right. right. left. now exists q.
          -- intros [ (X & _) | [ (x & _ & E & _) | [ (x & _ & E & _) | [ (x & E & ->) | (_ & X & _) ] ] ] ]; try contradiction.
             ++ now apply DF in E.
             ++ now apply DF in E.
             ++ apply INJ in E. now subst.
             ++ exfalso. apply X. now exists q.
        * apply NP in D. split.
          -- intros ->. tauto.
          -- intros [ (X & _) | [ (x & _ & E & _) | [ (x & _ & E & _) | [ (x & E & _) | (_ & _ & X) ] ] ] ]; try contradiction; try assumption.
             ++ exfalso. apply F. now exists x.
             ++ exfalso. apply F. eexists. exact E.
             ++ exfalso. apply D. now exists x. }
  split.
  - intros ->. right. split; [ exact G | ]. exists (nc_file n). split; [ reflexivity | ]. now apply K.
  - intros [ (q & -> & _) | (_ & file & -> & X) ]; [ exfalso; apply G; now exists q | ]. apply K in X. now subst.
Qed.

(** a type with +rw opens for writing, without a configuration *)
Theorem C104_netcdf_rw : forall w t n config args, rw_name t ->
  createReader netcdf w t n config args = if config then Throw else Ok (OpenNetcdf n true false).
Proof. intros w t n config args H. apply rw_flag in H. cbn [createReader netcdf]. unfold nc_reader. rewrite H. reflexivity. Qed.
Theorem C104_reader_writer : forall f t n config, In f [felt; grib true; grib false; ncml; netcdf; null] ->
  createReaderWriter f t n config = if String.eqb (fid f) "netcdf" then (if config then Throw else Ok (OpenNetcdf n true false)) else Throw.
Proof.
  intros f t n config H. cbn [In] in H. destruct H as [ <- | [ <- | [ <- | [ <- | [ <- | [ <- | [] ] ] ] ] ] ]; reflexivity.
Qed.

(** the format of written netcdf files *)
Theorem C104_netcdf_version : forall t n,
  createWriter netcdf t n = Ok (WriteNetcdf n (if in_dec (list_eq_dec ascii_dec) t [s_ "nc3"; s_ "cdf"; s_ "netcdf3"] then 3
    else if in_dec (list_eq_dec ascii_dec) t [s_ "nc4c"; s_ "nc4classic"; s_ "netcdf4classic"] then 4 else 5)%Z).
Proof.
  intros t n. cbn [createWriter netcdf]. unfold nc_writer, getNetCDFVersion. do 2 f_equal.
  destruct (one_of ["nc4"; "nc"; "netcdf4"; "netcdf"] t) eqn:A.
  { apply one_of_iff in A. cbn [map In] in A. destruct A as [ <- | [ <- | [ <- | [ <- | [] ] ] ] ]; reflexivity. }
  destruct (one_of ["nc4c"; "nc4classic"; "netcdf4classic"] t) eqn:B.
  { apply one_of_iff in B. cbn [map In] in B. destruct B as [ <- | [ <- | [ <- | [] ] ] ]; reflexivity. }
  destruct (one_of ["nc3"; "cdf"; "netcdf3"] t) eqn:C.
  { apply one_of_iff in C. cbn [map In] in C. destruct C as [ <- | [ <- | [ <- | [] ] ] ]; reflexivity. }
  apply one_of_not in B. apply one_of_not in C. cbn [map] in B, C.
  repeat match goal with |- context [in_dec ?d t ?l] => destruct (in_dec d t l) as [ X | _ ]; [ contradiction | ] end. reflexivity.
Qed.

(** the edition of written GRIB files: 2 if the type or the extension says so, else 1 if one of them is a
    GRIB type; index files are not written *)
Definition grib2_text (t : str) : Prop := t = s_ "grb2" \/ t = s_ "grib2".
Definition grib1_text (t : str) : Prop := t = s_ "grb" \/ t = s_ "grib" \/ t = s_ "grb1" \/ t = s_ "grib1".
Theorem C104_grib_edition : forall pb t n r, let e := getExtension n in
  createWriter (grib pb) t n = r <->
  (r = Throw /\ (t = s_ "grbml" \/ e = s_ "grbml")) \/
  (t <> s_ "grbml" /\ e <> s_ "grbml" /\
    ((r = Ok (WriteGrib n 2) /\ (grib2_text t \/ grib2_text e)) \/
     (r = Ok (WriteGrib n 1) /\ ~ (grib2_text t \/ grib2_text e) /\ (grib1_text t \/ grib1_text e)) \/
     (r = Throw /\ ~ (grib2_text t \/ grib2_text e) /\ ~ (grib1_text t \/ grib1_text e)))).
Proof.
  intros pb t n r e. cbn [createWriter grib]. unfold grib_writer. fold e.
  assert (M : forall x, one_of ["grbml"] x = true <-> x = s_ "grbml").
  { intros x. rewrite one_of_iff. cbn [map In]. intuition congruence. }
  assert (G2 : forall x, isGrib2Type x = true <-> grib2_text x).
  { intros x. unfold isGrib2Type, grib2_text. rewrite one_of_iff. cbn [map In]. intuition congruence. }
  assert (G1 : forall x, isGribType x = true <-> grib1_text x \/ grib2_text x).
  { intros x. unfold isGribType. rewrite orb_true_iff, G2, one_of_iff. unfold grib1_text. cbn [map In]. intuition congruence. }
  pose proof (M t) as Mt. pose proof (M e) as Me. pose proof (G2 t) as G2t. pose proof (G2 e) as G2e.
  pose proof (G1 t) as G1t. pose proof (G1 e) as G1e. clear M G2 G1.
  generalize dependent (s_ "grbml"). intros gm Mt Me.
  generalize dependent (grib2_text t). generalize dependent (grib2_text e).
  generalize dependent (grib1_text t). generalize dependent (grib1_text e).
  intros p1 p2 p3 G2e G1e p4 G2t G1t.
  destruct (one_of ["grbml"] t), (one_of ["grbml"] e), (isGrib2Type t), (isGrib2Type e), (isGribType t), (isGribType e);
    cbn [orb]; split; intros HH; try subst r; intuition (try congruence; try discriminate).
Qed.

(** ** the files and members of GRIB readers *)
(** the arguments: memberRegex:R:N names the members whose file matches R by N (by R without N);
    memberName:S:N those whose file name contains S; all others are files *)
Inductive parsed : list str -> list (str * str) -> list str -> Prop :=
| parsed_none : parsed [] [] []
| parsed_regex : forall a r rest args ms fs, runs (s_ ":") a (r :: rest) -> parsed args ms fs ->
    parsed ((s_ "memberRegex:" ++ a) :: args) ((hd r rest, r) :: ms) fs
| parsed_name : forall a r rest args ms fs, runs (s_ ":") a (r :: rest) -> parsed args ms fs ->
    parsed ((s_ "memberName:" ++ a) :: args) ((hd r rest, s_ ".*" ++ regex_escape r ++ s_ ".*") :: ms) fs
| parsed_file : forall a args ms fs, ~ starts_by (s_ "memberRegex:") a -> ~ starts_by (s_ "memberName:") a -> parsed args ms fs ->
    parsed (a :: args) ms (a :: fs).

Theorem C104_grib_args : forall args ms fs, parsed args ms fs -> forall m f,
  parseGribArgs args m f = Ok (m ++ ms, f ++ fs).
Proof.
  unfold parseGribArgs. induction 1 as [ | a r rest args ms fs R _ IH | a r rest args ms fs R _ IH | a args ms fs N1 N2 _ IH ]; intros m f; cbn [ofold].
  - now rewrite !app_nil_r.
  - unfold grib_arg at 1. replace (prefixed (s_ "memberRegex:") (s_ "memberRegex:" ++ a)) with true by (symmetry; apply prefixed_iff; eauto).
    change (skipn 12 (s_ "memberRegex:" ++ a)) with a. rewrite (proj2 (C18_tokenize_maximal_runs _ _ _) R).
    cbn [obind]. replace (match match rest with [] => [r; r] | _ => r :: rest end with p0 :: p1 :: _ => Ok (p0, p1) | _ => Throw end)
      with (Ok (r, hd r rest)) by (destruct rest; reflexivity).
    cbn [obind fst snd]. rewrite IH. now rewrite <- app_assoc.
  - unfold grib_arg at 1. change (prefixed (s_ "memberRegex:") (s_ "memberName:" ++ a)) with false. cbn iota.
    replace (prefixed (s_ "memberName:") (s_ "memberName:" ++ a)) with true by (symmetry; apply prefixed_iff; eauto).
    change (skipn 11 (s_ "memberName:" ++ a)) with a. rewrite (proj2 (C18_tokenize_maximal_runs _ _ _) R).
    cbn [obind]. replace (match match rest with [] => [r; r] | _ => r :: rest end with p0 :: p1 :: _ => Ok (p0, p1) | _ => Throw end)
      with (Ok (r, hd r rest)) by (destruct rest; reflexivity).
    cbn [obind fst snd]. rewrite IH. now rewrite <- app_assoc.
  - unfold grib_arg at 1.
    replace (prefixed (s_ "memberRegex:") a) with false by (destruct (prefixed (s_ "memberRegex:") a) eqn:E; [ apply prefixed_iff in E; contradiction | reflexivity ]).
    replace (prefixed (s_ "memberName:") a) with false by (destruct (prefixed (s_ "memberName:") a) eqn:E; [ apply prefixed_iff in E; contradiction | reflexivity ]).
    cbn [obind]. rewrite IH. now rewrite <- app_assoc.
Qed.

(** an argument with nothing but colons behind memberRegex: or memberName: makes it fail *)
Definition empty_member (a : str) : Prop :=
  exists k, a = s_ "memberRegex:" ++ repeat ":"%char k \/ a = s_ "memberName:" ++ repeat ":"%char k.
Theorem C104_grib_args_all : forall args, (exists ms fs, parsed args ms fs) \/
  ((exists a, In a args /\ empty_member a) /\ forall m f, parseGribArgs args m f = Throw).
Proof.
  induction args as [ | a args IH ]; [ left; exists [], []; constructor | ].
  assert (COLONS : forall d, Forall (isd (s_ ":")) d -> d = repeat ":"%char (length d)).
  { induction 1 as [ | c d C _ E ]; [ reflexivity | ]. cbn [length repeat]. rewrite <- E. f_equal.
    destruct C as [ <- | [] ]. reflexivity. }
  assert (NONE : forall a, runs (s_ ":") a [] -> exists k, a = repeat ":"%char k).
  { intros x X. inversion X; subst. eauto. }
  (* what this argument does *)
  assert (HERE : (forall ms fs, parsed args ms fs -> exists ms' fs', parsed (a :: args) ms' fs') /\
                 (forall m f, exists m' f', grib_arg (m, f) a = Ok (m', f')) \/
                 (empty_member a /\ forall m f, grib_arg (m, f) a = Throw)).
  { destruct (prefixed (s_ "memberRegex:") a) eqn:P1; [ | destruct (prefixed (s_ "memberName:") a) eqn:P2 ].
    - apply prefixed_iff in P1. destruct P1 as (b & ->). destruct (tokenize_runs b (s_ ":")) as ([ | r rest ] & E & R).
      + right. split; [ destruct (NONE b R) as (k & ->); exists k; now left | ]. intros m f. unfold grib_arg.
        replace (prefixed (s_ "memberRegex:") (s_ "memberRegex:" ++ b)) with true by (symmetry; apply prefixed_iff; eauto).
        change (skipn 12 (s_ "memberRegex:" ++ b)) with b. rewrite E. reflexivity.
      + left. split; [ intros ms fs Q; eexists; eexists; apply parsed_regex; eassumption | ].
        intros m f. pose proof (C104_grib_args [s_ "memberRegex:" ++ b] _ _ (parsed_regex _ _ _ _ _ _ R parsed_none) m f) as G.
        unfold parseGribArgs in G. cbn [ofold] in G. destruct (grib_arg (m, f) _) as [ [ m' f' ] | | | ]; try discriminate G. eauto.
    - apply prefixed_iff in P2. destruct P2 as (b & ->). destruct (tokenize_runs b (s_ ":")) as ([ | r rest ] & E & R).
      + right. split; [ destruct (NONE b R) as (k & ->); exists k; now right | ]. intros m f. unfold grib_arg.
        change (prefixed (s_ "memberRegex:") (s_ "memberName:" ++ b)) with false. cbn iota.
        replace (prefixed (s_ "memberName:") (s_ "memberName:" ++ b)) with true by (symmetry; apply prefixed_iff; eauto).
        change (skipn 11 (s_ "memberName:" ++ b)) with b. rewrite E. reflexivity.
      + left. split; [ intros ms fs Q; eexists; eexists; apply parsed_name; eassumption | ].
        intros m f. pose proof (C104_grib_args [s_ "memberName:" ++ b] _ _ (parsed_name _ _ _ _ _ _ R parsed_none) m f) as G.
        unfold parseGribArgs in G. cbn [ofold] in G. destruct (grib_arg (m, f) _) as [ [ m' f' ] | | | ]; try discriminate G. eauto.
    - left. split.
      + intros ms fs Q. eexists. eexists. apply parsed_file; [ | | eassumption ]; intros X; apply prefixed_iff in X; congruence.
      + intros m f. unfold grib_arg. rewrite P1, P2. eauto. }
  destruct HERE as [ (H1 & H2) | (B & T) ].
  - destruct IH as [ (ms & fs & Q) | ((b & I & B) & T) ]; [ left; now apply (H1 ms fs) | right ].
    split; [ exists b; split; [ now right | exact B ] | ]. intros m f. unfold parseGribArgs in *. cbn [ofold].
    destruct (H2 m f) as (m' & f' & ->). cbn [obind]. apply T.
  - right. split; [ exists a; split; [ now left | exact B ] | ]. intros m f. unfold parseGribArgs. cbn [ofold]. now rewrite T.
Qed.

(** the lines of a text: each ended by a line feed, the last one maybe not *)
Definition LF : ascii := "010"%char.
Definition lines (text : str) (ls : list str) : Prop :=
  Forall (fun l => ~ In LF l) ls /\
  (text = flat_map (fun l => l ++ [LF]) ls \/
   exists ls' l, ls = ls' ++ [l] /\ l <> [] /\ text = flat_map (fun l => l ++ [LF]) ls' ++ l).

(** the files a GRIB file name stands for *)
Inductive file_list (w : world) : str -> list str -> Prop :=
| fl_glob : forall p, file_list w (s_ "glob:" ++ p) (globbed w p)
| fl_many : forall c rest fs, rest <> [] -> runs [c] rest fs -> file_list w (s_ "many:" ++ c :: rest) fs
| fl_list : forall p text fs, content w p = Some text -> lines text fs -> file_list w (s_ "list:" ++ p) fs
| fl_no_list : forall p, content w p = None -> file_list w (s_ "list:" ++ p) []
| fl_short : forall p, length p <= 1 -> file_list w (s_ "many:" ++ p) [s_ "many:" ++ p]
| fl_plain : forall n, ~ starts_by (s_ "glob:") n -> ~ starts_by (s_ "many:") n -> ~ starts_by (s_ "list:") n -> file_list w n [n].

Lemma getlines_one : forall l rest cur, ~ In LF l -> getlines (l ++ LF :: rest) cur = (cur ++ l) :: getlines rest [].
Proof.
  induction l as [ | c l IH ]; intros rest cur N; cbn [app getlines].
  - change (Ascii.eqb LF "010"%char) with true. cbn iota. now rewrite app_nil_r.
  - replace (Ascii.eqb c "010"%char) with false.
    + rewrite IH by (intros X; apply N; now right). now rewrite <- app_assoc.
    + symmetry. apply Ascii.eqb_neq. intros ->. apply N. now left.
Qed.
Lemma getlines_end : forall l cur, ~ In LF l -> getlines l cur = match cur ++ l with [] => [] | x => [x] end.
Proof.
  induction l as [ | c l IH ]; intros cur N; cbn [getlines].
  - rewrite app_nil_r. now destruct cur.
  - replace (Ascii.eqb c "010"%char) with false.
    + rewrite IH by (intros X; apply N; now right). now rewrite <- app_assoc.
    + symmetry. apply Ascii.eqb_neq. intros ->. apply N. now left.
Qed.

Lemma lines_get : forall text ls, lines text ls -> getlines text [] = ls.
Proof.
  intros text ls (F & [ -> | (ls' & l & -> & NE & ->) ]).
  - induction F as [ | l ls N _ IH ]; [ reflexivity | ]. cbn [flat_map]. rewrite <- app_assoc. cbn [app].
    now rewrite getlines_one, IH.
  - apply Forall_app in F. destruct F as (F & L). inversion L as [ | ? ? NL _ ]; subst.
    induction F as [ | x ls' N _ IH ]; cbn [flat_map app].
    + rewrite getlines_end by assumption. cbn [app]. now destruct l.
    + rewrite <- !app_assoc. cbn [app]. now rewrite getlines_one, IH.
Qed.

Theorem C104_grib_files : forall w n fs, file_list w n fs -> grib_files w n = Ok fs.
Proof.
  intros w n fs H. unfold grib_files. destruct H as [ p | c rest fs NE R | p text fs C L | p C | p L | n N1 N2 N3 ].
  - replace (prefixed (s_ "glob:") (s_ "glob:" ++ p)) with true by (symmetry; apply prefixed_iff; eauto). reflexivity.
  - change (prefixed (s_ "glob:") (s_ "many:" ++ c :: rest)) with false.
    replace (prefixed (s_ "many:") (s_ "many:" ++ c :: rest)) with true by (symmetry; apply prefixed_iff; eauto).
    replace (6 <? length (s_ "many:" ++ c :: rest)) with true.
    2:{ symmetry. apply Nat.ltb_lt. cbn. destruct rest; [ congruence | cbn; lia ]. }
    cbn [andb]. change (skipn 6 (s_ "many:" ++ c :: rest)) with rest. change (firstn 1 (skipn 5 (s_ "many:" ++ c :: rest))) with [c].
    now apply C18_tokenize_maximal_runs.
  - change (prefixed (s_ "glob:") (s_ "list:" ++ p)) with false. change (prefixed (s_ "many:") (s_ "list:" ++ p)) with false. cbn [andb].
    replace (prefixed (s_ "list:") (s_ "list:" ++ p)) with true by (symmetry; apply prefixed_iff; eauto).
    change (skipn 5 (s_ "list:" ++ p)) with p. rewrite C. now rewrite (lines_get text fs L).
  - change (prefixed (s_ "glob:") (s_ "list:" ++ p)) with false. change (prefixed (s_ "many:") (s_ "list:" ++ p)) with false. cbn [andb].
    replace (prefixed (s_ "list:") (s_ "list:" ++ p)) with true by (symmetry; apply prefixed_iff; eauto).
    change (skipn 5 (s_ "list:" ++ p)) with p. now rewrite C.
  - change (prefixed (s_ "glob:") (s_ "many:" ++ p)) with false. change (prefixed (s_ "list:") (s_ "many:" ++ p)) with false.
    replace (6 <? length (s_ "many:" ++ p)) with false; [ now rewrite andb_false_r | ].
    symmetry. apply Nat.ltb_ge. rewrite app_length. cbn. lia.
  - assert (NP : forall p, ~ starts_by p n -> prefixed p n = false).
    { intros p X. destruct (prefixed p n) eqn:E; [ apply prefixed_iff in E; contradiction | reflexivity ]. }
    now rewrite !NP.
Qed.

(** the reader: index files by their type or extension, else all files of the name and of the arguments; a
    configuration is needed but for grbfp *)
Theorem C104_grib_open : forall pb w t n config args ms fs fl, parsed args ms fs -> file_list w n fl ->
  let e := getExtension n in
  let r := createReader (grib pb) w t n config args in
  (t = s_ "grbml" \/ e = s_ "grbml" -> r = if config then Ok (OpenGribIndex n ms) else Throw) /\
  (t <> s_ "grbml" -> e <> s_ "grbml" ->
     (t = s_ "grbfp" \/ e = s_ "grbfp" -> r = Ok (OpenGribIndex n [])) /\
     (t <> s_ "grbfp" -> e <> s_ "grbfp" -> r = if config then Ok (OpenGrib (fl ++ fs) ms) else Throw)).
Proof.
  intros pb w t n config args ms fs fl P F e r. unfold r. cbn [createReader grib]. unfold grib_reader. fold e.
  rewrite (C104_grib_args _ _ _ P [] []). rewrite (C104_grib_files _ _ _ F). cbn [obind].
  rewrite (C104_grib_args _ _ _ P [] fl). cbn [obind fst snd app].
  assert (O : forall u x, one_of [u] x = true <-> x = s_ u) by (intros u x; rewrite one_of_iff; cbn [map In]; intuition congruence).
  pose proof (O "grbml" t) as Mt. pose proof (O "grbml" e) as Me. pose proof (O "grbfp" t) as Ft. pose proof (O "grbfp" e) as Fe. clear O.
  destruct (one_of ["grbml"] t), (one_of ["grbml"] e), (one_of ["grbfp"] t), (one_of ["grbfp"] e); cbn [orb];
    intuition congruence.
Qed.

(** the other drivers: felt reads with the configuration or a default one and does not write, ncml reads and
    writes, null only writes *)
Theorem C104_others : forall w t n config args,
  createReader felt w t n config args = Ok (OpenFelt n (negb config)) /\ createWriter felt t n = Throw /\
  createReader ncml w t n config args = Ok (OpenNcml n) /\ createWriter ncml t n = Ok (WriteNcml n) /\
  createReader null w t n config args = Throw /\ createWriter null t n = Ok (WriteNull n).
Proof. intros. repeat split. Qed.

(** ** cases *)
Definition all : list factory := installed true (Some true) true.
Definition files (l : list (string * str)) : world :=
  {| content := fun p => match find (fun e => str_eqb (s_ (fst e)) p) l with Some e => Some (snd e) | None => None end;
     globbed := fun p => if str_eqb p (s_ "d/*.grb") then [s_ "d/1.grb"; s_ "d/2.grb"] else [] |}.
Definition some_files : world := files
  [("/d/a.nc", s_ "GRIB and so on"); ("/d/noext", ["C"; "D"; "F"; "001"; "a"; "b"; "c"; "d"; "e"; "f"; "g"; "h"]%char);
   ("/d/big", ["C"; "D"; "F"; "002"; "a"; "b"; "c"; "d"; "e"; "f"; "g"; "h"]%char);
   ("/d/list", s_ "one.grb" ++ LF :: s_ "two.grb")].
Definition chosen (t n : string) (wr : bool) : option string :=
  match findFactory some_files all (s_ t) (s_ n) wr with Ok (Some f) => Some (fid f) | _ => None end.

Example C104_nonvacuous :
  chosen "nc4" "/d/a.nc" false = Some "netcdf" /\ chosen "" "/d/a.nc" false = Some "grib-api" /\
  chosen "" "/d/a.nc" true = Some "netcdf" /\ chosen "" "file:/d/noext" false = Some "netcdf" /\
  chosen "" "http://x/y.grib" false = Some "netcdf" /\ chosen "" "/d/x.GRIB2" true = Some "grib-api" /\
  chosen "" "/d/x.ncml" false = Some "ncml" /\ chosen "null" "/d/x.ncml" false = Some "null" /\
  chosen "" "file:/d/x#mode=nczarr,file" false = Some "netcdf" /\ chosen "" "/d/x.dat" false = Some "felt" /\
  chosen "" "/d/x" false = None /\
  create some_files all (s_ "grb") (s_ "list:/d/list") true [s_ "three.grb"; s_ "memberRegex:.*m1.*:one"; s_ "memberName:m.2"] =
    Ok (OpenGrib [s_ "one.grb"; s_ "two.grb"; s_ "three.grb"] [(s_ "one", s_ ".*m1.*"); (s_ "m.2", s_ ".*m\.2.*")]) /\
  create some_files all (s_ "grb") (s_ "many:,a,b") true [] = Ok (OpenGrib [s_ "a"; s_ "b"] []) /\
  create some_files all (s_ "grb") (s_ "glob:d/*.grb") true [] = Ok (OpenGrib [s_ "d/1.grb"; s_ "d/2.grb"] []) /\
  create some_files all [] (s_ "dods://x/y") true [] = Ok (OpenNetcdf (s_ "http://x/y") false true) /\
  create_writer some_files all [] (s_ "o.grb2") = Ok (WriteGrib (s_ "o.grb2") 2).
Proof. repeat split; vm_compute; reflexivity. Qed.

(** Finding: only the first version of the classic netcdf format is known by its first bytes; a file with
    64-bit offsets (CDF and 2) whose name has no extension nc cannot be read without a type name. *)
Theorem C104_offset64_refuted :
  create some_files all [] (s_ "/d/noext") false [] = Ok (OpenNetcdf (s_ "/d/noext") false false) /\
  create some_files all [] (s_ "/d/big") false [] = Throw.
Proof. split; vm_compute; reflexivity. Qed.

(** Finding: a type name that no driver knows is not refused but ignored; nc5 for the contents of a GRIB file
    named .nc opens the GRIB reader. *)
Theorem C104_unknown_type_refuted :
  create some_files all (s_ "nc5") (s_ "/d/a.nc") true [] = Ok (OpenGrib [s_ "/d/a.nc"] []).
Proof. vm_compute. reflexivity. Qed.

(** Finding: nc3, cdf and netcdf are type names but no extensions, so out.nc3 cannot be written without a
    type name. *)
Theorem C104_nc3_name_refuted :
  create_writer some_files all (s_ "nc3") (s_ "out.nc3") = Ok (WriteNetcdf (s_ "out.nc3") 3) /\
  create_writer some_files all [] (s_ "out.nc3") = Throw /\
  create_writer some_files all [] (s_ "out.netcdf") = Throw.
Proof. repeat split; vm_compute; reflexivity. Qed.

(** Finding: with +rw the format of the type name is lost; nc3+rw writes netcdf 4. *)
Theorem C104_rw_version_refuted :
  create_writer some_files all (s_ "nc3+rw") (s_ "out") = Ok (WriteNetcdf (s_ "out") 5).
Proof. vm_compute. reflexivity. Qed.

(** Finding: the extension overrides the type name: a file with type grib1 and extension grib2 is written as
    edition 2. *)
Theorem C104_grib1_refuted :
  create_writer some_files all (s_ "grib1") (s_ "out.grib2") = Ok (WriteGrib (s_ "out.grib2") 2).
Proof. vm_compute. reflexivity. Qed.

(** Finding: opened for reading and writing, the prefix file: stays in the name. *)
Theorem C104_rw_file_refuted :
  create some_files all (s_ "nc") (s_ "file:/d/x.nc") false [] = Ok (OpenNetcdf (s_ "/d/x.nc") false false) /\
  create some_files all (s_ "nc+rw") (s_ "file:/d/x.nc") false [] = Ok (OpenNetcdf (s_ "file:/d/x.nc") true false).
Proof. split; vm_compute; reflexivity. Qed.

(** Finding: a regular expression with a colon is cut there, and what follows becomes the name of the member. *)
Theorem C104_colon_refuted :
  parseGribArgs [s_ "memberRegex:(?:a|b):both"] [] [] = Ok ([(s_ "a|b)", s_ "(?")], []).
Proof. vm_compute. reflexivity. Qed.

(** Finding: matchMagic of the netcdf driver compares seven bytes when it is given four or more; the search of
    findFactory always has seven. *)
Theorem C104_magic_refuted : forall magic, 4 <= length magic < 7 -> starts_by magic hdf5 -> matchMagic netcdf magic = UB.
Proof.
  intros magic L (r & E). unfold hdf5 in E. cbn [matchMagic netcdf].
  do 4 (destruct magic as [ | ? magic ]; [ cbn in L; lia | ]).
  destruct magic as [ | x [ | y [ | z magic ] ] ]; cbn [app] in E; [ | | | cbn in L; lia ]; injection E; intros; subst; reflexivity.
Qed.

Print Assumptions C104_choice.
Print Assumptions C104_by_type.
Print Assumptions C104_untyped.
Print Assumptions C104_by_magic.
Print Assumptions C104_no_magic.
Print Assumptions C104_write_blind.
Print Assumptions C104_by_name.
Print Assumptions C104_total.
Print Assumptions C104_create.
Print Assumptions C104_netcdf_open.
Print Assumptions C104_netcdf_rw.
Print Assumptions C104_reader_writer.
Print Assumptions C104_netcdf_version.
Print Assumptions C104_grib_edition.
Print Assumptions C104_grib_args.
Print Assumptions C104_grib_args_all.
Print Assumptions C104_grib_files.
Print Assumptions C104_grib_open.
Print Assumptions C104_others.
Print Assumptions C104_nonvacuous.
Print Assumptions C104_offset64_refuted.
Print Assumptions C104_unknown_type_refuted.
Print Assumptions C104_nc3_name_refuted.
Print Assumptions C104_rw_version_refuted.
Print Assumptions C104_grib1_refuted.
Print Assumptions C104_rw_file_refuted.
Print Assumptions C104_colon_refuted.
Print Assumptions C104_magic_refuted.
