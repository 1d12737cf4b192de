(** C30: quality masking replaces exactly the rejected cells. *)
From Coq Require Import String Ascii List Arith ZArith QArith Bool Lia Lqa.
From Coq Require Import ZifyBool ZifyNat.
From Verif Require Import Base IndexSpec MaskModel.
Import ListNotations.
Local Open Scope list_scope.
Local Open Scope nat_scope.

Lemma qlt_spec a b : qlt a b = true <-> (a < b)%Q.
Proof. unfold qlt. rewrite Qlt_alt. destruct (a ?= b)%Q; split; congruence. Qed.
Lemma qlt_false a b : qlt a b = false <-> (b <= a)%Q.
Proof. rewrite <- not_true_iff_false, qlt_spec. split; [ apply Qnot_lt_le | apply Qle_not_lt ]. Qed.
Lemma qeq_spec a b : qeq a b = true <-> (a == b)%Q.
Proof. unfold qeq. rewrite Qeq_alt. destruct (a ?= b)%Q; split; congruence. Qed.

(** ** what is rejected *)
(** outside of the valid range of the status variable, or its fill value *)
Definition invalid (nfo : info) (s : Q) : Prop :=
  (exists lo, (match valid_range nfo with Some r => Some (fst r) | None => valid_min nfo end) = Some lo /\ s < lo)%Q \/
  (exists hi, (match valid_range nfo with Some r => Some (snd r) | None => valid_max nfo end) = Some hi /\ hi < s)%Q \/
  (exists f, status_fill nfo = Some f /\ s == f)%Q.
(** the rules: a list of allowed values, or a flag *)
Definition rejected (number : string -> outcome Q) (r : rule) (nfo : info) (s : option Q) : Prop :=
  match s with
  | None => True
  | Some v =>
      match r with
      | Values vs => vs <> [] /\ ~ exists u, In u vs /\ (u == v)%Q
      | Use flag =>
          invalid nfo v \/
          (exists t m, flag = ("max:" ++ t)%string /\ number t = Ok m /\ (m < v)%Q) \/
          (exists t m, flag = ("min:" ++ t)%string /\ number t = Ok m /\ (v < m)%Q)
      end
  end.
(** flags with a meaning: all, max:number, min:number *)
Definition good_flag (number : string -> outcome Q) (flag : string) : Prop :=
  flag = "all"%string \/ exists t m, t <> ""%string /\ has_newline t = false /\ number t = Ok m /\ (flag = ("max:" ++ t)%string \/ flag = ("min:" ++ t)%string).
Definition good_rule (number : string -> outcome Q) (r : rule) : Prop := match r with Values _ => True | Use flag => good_flag number flag end.

(** ** the search *)
Inductive ordered : list Q -> Prop :=
| ord_nil : ordered []
| ord_cons v l : (forall u, In u l -> (v <= u)%Q) -> ordered l -> ordered (v :: l).
Lemma insert_in v l u : In u (insert v l) <-> u = v \/ In u l.
Proof.
  induction l as [ | w l IH ]; cbn; [ intuition | ]. destruct (qlt w v); cbn; [ rewrite IH | ]; intuition.
Qed.
Lemma insert_ordered v l : ordered l -> ordered (insert v l).
Proof.
  induction 1 as [ | w l H O IH ]; cbn; [ constructor; [ intros ? [] | constructor ] | ].
  destruct (qlt w v) eqn:E.
  - constructor; [ | exact IH ]. intros u Hu. apply insert_in in Hu as [ -> | Hu ]; [ | auto ]. apply qlt_spec in E. lra.
  - apply qlt_false in E. constructor; [ | now constructor ]. intros u [ <- | Hu ]; [ exact E | ]. specialize (H u Hu). lra.
Qed.
Lemma sort_in l u : In u (sort l) <-> In u l.
Proof. induction l as [ | v l IH ]; cbn; [ reflexivity | ]. rewrite insert_in, IH. intuition. Qed.
Lemma sort_ordered l : ordered (sort l).
Proof. induction l as [ | v l IH ]; cbn; [ constructor | now apply insert_ordered ]. Qed.
Lemma sort_nil l : sort l = [] -> l = [].
Proof. intro E. destruct l as [ | v l ]; [ reflexivity | ]. exfalso. assert (In v (sort (v :: l))) by (apply sort_in; now left). rewrite E in H. destruct H. Qed.
Lemma search_ordered l v : ordered l -> search l (Some v) = true <-> exists u, In u l /\ (u == v)%Q.
Proof.
  unfold search. cbn [vlt]. induction 1 as [ | w l H O IH ]; [ cbn; split; [ discriminate | intros (? & [] & _) ] | ].
  cbn [find]. destruct (qlt w v) eqn:E; cbn [negb].
  - apply qlt_spec in E. rewrite IH. split; intros (u & Hu & Eu); exists u; (split; [ | exact Eu ]); [ now right | ]. destruct Hu as [ -> | Hu ]; [ lra | exact Hu ].
  - apply qlt_false in E. destruct (qlt v w) eqn:E'; cbn [negb].
    + apply qlt_spec in E'. split; [ discriminate | ]. intros (u & [ -> | Hu ] & Eu); [ lra | ]. specialize (H u Hu). lra.
    + apply qlt_false in E'. split; [ intros _ | auto ]. exists w. split; [ now left | lra ].
Qed.

(** ** the rule *)
Lemma undefine_nth p sd i : nth_error (undefine p sd) i = option_map (fun v => if p v then None else v) (nth_error sd i).
Proof. apply nth_error_map. Qed.
Lemma undefine_length p sd : length (undefine p sd) = length sd.
Proof. apply map_length. Qed.

Lemma prefix_app p s : String.prefix p (p ++ s) = true.
Proof. induction p as [ | c p IH ]; cbn; [ now destruct s | ]. destruct (ascii_dec c c); [ exact IH | congruence ]. Qed.
Lemma substring_all s : forall n, n = String.length s -> substring 0 n s = s.
Proof. induction s as [ | c s IH ]; intros n ->; cbn; [ reflexivity | now rewrite IH ]. Qed.
Lemma match_prefix_app a b c d t : t <> ""%string -> has_newline t = false ->
  match_prefix (String a (String b (String c (String d "")))) (String a (String b (String c (String d t)))) = Some t.
Proof.
  intros Ht Hn. unfold match_prefix. change (String a (String b (String c (String d t)))) with (String a (String b (String c (String d ""))) ++ t)%string.
  rewrite prefix_app. cbn [String.append String.length substring]. rewrite substring_all by lia.
  destruct (String.eqb_spec t ""); [ congruence | ]. now rewrite Hn.
Qed.

(** the status after the valid range and the fill value *)
Definition cleaned (nfo : info) (v : option Q) : option Q :=
  let minFlag := match valid_range nfo with Some (a, _) => Some a | None => valid_min nfo end in
  let maxFlag := match valid_range nfo with Some (_, b) => Some b | None => valid_max nfo end in
  let v := match minFlag with Some m => if vlt v (Some m) then None else v | None => v end in
  let v := match maxFlag with Some m => if vlt (Some m) v then None else v | None => v end in
  match status_fill nfo with Some f => if veq v (Some f) then None else v | None => v end.
Lemma cleaned_spec nfo v : match v with None => cleaned nfo v = None | Some s => (invalid nfo s -> cleaned nfo v = None) /\ (~ invalid nfo s -> cleaned nfo v = v) end.
Proof.
  unfold cleaned, invalid.
  set (lo := match valid_range nfo with Some (a, _) => Some a | None => valid_min nfo end).
  set (hi := match valid_range nfo with Some (_, b) => Some b | None => valid_max nfo end).
  assert (Elo : match valid_range nfo with Some r => Some (fst r) | None => valid_min nfo end = lo) by (unfold lo; destruct (valid_range nfo) as [ [ ] | ]; reflexivity).
  assert (Ehi : match valid_range nfo with Some r => Some (snd r) | None => valid_max nfo end = hi) by (unfold hi; destruct (valid_range nfo) as [ [ ] | ]; reflexivity).
  rewrite Elo, Ehi. clearbody lo hi. clear Elo Ehi.
  destruct v as [ s | ]; [ | destruct lo, hi, (status_fill nfo); reflexivity ].
  assert (L : match lo with Some m => if vlt (Some s) (Some m) then None else Some s | None => Some s end = (if match lo with Some m => qlt s m | None => false end then None else Some s))
    by (destruct lo; reflexivity). rewrite L. clear L.
  assert (Dl : match lo with Some m => qlt s m | None => false end = true <-> exists m, lo = Some m /\ (s < m)%Q).
  { destruct lo as [ m | ]; [ rewrite qlt_spec | ]; (split; [ | intros (m' & E & H) ]); [ eauto | injection E as ->; exact H | discriminate | discriminate ]. }
  assert (Dh : match hi with Some m => qlt m s | None => false end = true <-> exists m, hi = Some m /\ (m < s)%Q).
  { destruct hi as [ m | ]; [ rewrite qlt_spec | ]; (split; [ | intros (m' & E & H) ]); [ eauto | injection E as ->; exact H | discriminate | discriminate ]. }
  assert (Df : match status_fill nfo with Some f => qeq s f | None => false end = true <-> exists f, status_fill nfo = Some f /\ (s == f)%Q).
  { destruct (status_fill nfo) as [ m | ]; [ rewrite qeq_spec | ]; (split; [ | intros (m' & E & H) ]); [ eauto | injection E as ->; exact H | discriminate | discriminate ]. }
  destruct (match lo with Some m => qlt s m | None => false end).
  { assert (R : match status_fill nfo with Some f => if veq match hi with Some m => if vlt (Some m) None then None else None | None => None end (Some f) then None else match hi with Some m => if vlt (Some m) None then None else None | None => None end | None => match hi with Some m => if vlt (Some m) None then None else None | None => None end end = @None Q) by (destruct hi, (status_fill nfo); reflexivity).
    rewrite R. split; [ reflexivity | ]. intro N. exfalso. apply N. left. now apply Dl. }
  assert (H : match hi with Some m => if vlt (Some m) (Some s) then None else Some s | None => Some s end = (if match hi with Some m => qlt m s | None => false end then None else Some s))
    by (destruct hi; reflexivity). rewrite H. clear H.
  destruct (match hi with Some m => qlt m s | None => false end).
  { assert (R : match status_fill nfo with Some f => if veq None (Some f) then None else None | None => None end = @None Q) by (destruct (status_fill nfo); reflexivity).
    rewrite R. split; [ reflexivity | ]. intro N. exfalso. apply N. right; left. now apply Dh. }
  assert (F : match status_fill nfo with Some f => if veq (Some s) (Some f) then None else Some s | None => Some s end = (if match status_fill nfo with Some m => qeq s m | None => false end then None else Some s))
    by (destruct (status_fill nfo); reflexivity). rewrite F. clear F.
  destruct (match status_fill nfo with Some m => qeq s m | None => false end).
  { split; [ reflexivity | ]. intro N. exfalso. apply N. right; right. now apply Df. }
  split; [ | reflexivity ]. intros [ I | [ I | I ] ]; [ apply Dl in I | apply Dh in I | apply Df in I ]; discriminate.
Qed.
Lemma cleaned_list nfo sd :
  (let minFlag := match valid_range nfo with Some (a, _) => Some a | None => valid_min nfo end in
   let maxFlag := match valid_range nfo with Some (_, b) => Some b | None => valid_max nfo end in
   let sd := match minFlag with Some m => undefine (fun v => vlt v (Some m)) sd | None => sd end in
   let sd := match maxFlag with Some m => undefine (fun v => vlt (Some m) v) sd | None => sd end in
   match status_fill nfo with Some f => undefine (fun v => veq v (Some f)) sd | None => sd end) = map (cleaned nfo) sd.
Proof.
  cbv zeta. unfold cleaned, undefine.
  destruct (match valid_range nfo with Some (a, _) => Some a | None => valid_min nfo end), (match valid_range nfo with Some (_, b) => Some b | None => valid_max nfo end), (status_fill nfo);
    rewrite ?map_map; try reflexivity. symmetry. apply map_id.
Qed.

Lemma apply_rule_spec number r nfo sd : good_rule number r ->
  exists sd', apply_rule number r nfo sd = Ok sd' /\ length sd' = length sd /\
    forall i s, nth_error sd i = Some s -> (rejected number r nfo s -> nth_error sd' i = Some None) /\ (~ rejected number r nfo s -> nth_error sd' i = Some s).
Proof.
  intro G. unfold apply_rule. destruct r as [ vs | flag ]; cbn [good_rule] in G.
  - cbn [obind]. destruct (sort vs) as [ | v0 l0 ] eqn:E.
    + apply sort_nil in E as ->. eexists. split; [ reflexivity | ]. split; [ reflexivity | ]. intros i [ s | ] H; cbn; rewrite H; (split; [ intro R | ]); try reflexivity. now destruct R.
    + eexists. split; [ reflexivity | ]. split; [ apply undefine_length | ]. intros i [ s | ] H; rewrite undefine_nth, H; cbn [option_map rejected].
      * rewrite <- E. assert (S := search_ordered (sort vs) s (sort_ordered vs)).
        assert (X : (exists u, In u (sort vs) /\ (u == s)%Q) <-> exists u, In u vs /\ (u == s)%Q) by (split; intros (u & Hu & Eu); exists u; (split; [ now apply sort_in | exact Eu ])).
        rewrite X in S. destruct (search (sort vs) (Some s)); cbn [negb].
        { split; [ | reflexivity ]. intros (_ & N). exfalso. apply N. now apply S. }
        { split; [ reflexivity | ]. intro N. exfalso. apply N. split; [ intros ->; cbn in E; discriminate | ]. intro Q. apply S in Q. discriminate. }
      * split; [ intros _ | tauto ]. now destruct (negb _).
  - set (sd1 := map (cleaned nfo) sd).
    assert (C := cleaned_list nfo sd). cbv zeta in C. rewrite C. clear C. fold sd1.
    assert (N1 : forall i s, nth_error sd i = Some s -> nth_error sd1 i = Some (cleaned nfo s)) by (intros i s H; unfold sd1; now rewrite nth_error_map, H).
    assert (L1 : length sd1 = length sd) by apply map_length.
    destruct G as [ -> | (t & m & Ht & Hn & Em & [ -> | -> ]) ].
    + cbn [String.eqb Ascii.eqb Bool.eqb obind]. change (("all" =? "all")%string) with true. cbn [obind]. eexists. split; [ reflexivity | ]. split; [ exact L1 | ].
      intros i s H. rewrite (N1 i s H). assert (K := cleaned_spec nfo s). destruct s as [ v | ]; [ | cbn; rewrite K; tauto ].
      cbn [rejected]. destruct K as (K1 & K2). split; [ | intro N; now rewrite K2 by tauto ].
      intros [ I | [ (t & m & E & _) | (t & m & E & _) ] ]; [ now rewrite K1 | discriminate | discriminate ].
    + change (("max:" ++ t =? "all")%string) with false. cbn [String.append]. rewrite match_prefix_app by auto. rewrite Em. cbn [obind].
      eexists. split; [ reflexivity | ]. split; [ now rewrite undefine_length | ].
      intros i s H. rewrite undefine_nth, (N1 i s H). cbn [option_map]. assert (K := cleaned_spec nfo s). destruct s as [ v | ]; [ | cbn [rejected]; rewrite K; cbn; tauto ].
      cbn [rejected]. destruct K as (K1 & K2). destruct (vlt (Some m) (Some v)) eqn:Lt.
      * assert (R : (m < v)%Q) by (now apply qlt_spec). split; [ intros _ | intro N; exfalso; apply N; right; left; exists t, m; auto ].
        assert (W : cleaned nfo (Some v) = None \/ cleaned nfo (Some v) = Some v) by (unfold cleaned; destruct (valid_range nfo) as [ [ ] | ], (valid_min nfo), (valid_max nfo), (status_fill nfo); repeat match goal with |- context [ if ?b then _ else _ ] => destruct b end; cbn; auto).
        destruct W as [ -> | -> ]; [ reflexivity | now rewrite Lt ].
      * split.
        { intros [ I | [ (t' & m' & E & E1 & E2) | (t' & m' & E & _) ] ].
          - rewrite K1 by exact I. reflexivity.
          - cbn in E. injection E as <-. rewrite Em in E1. injection E1 as <-. cbn in Lt. apply qlt_false in Lt. lra.
          - discriminate. }
        { intro N. rewrite K2 by tauto. now rewrite Lt. }
    + change (("min:" ++ t =? "all")%string) with false. cbn [String.append].
      assert (M0 : match_prefix "max:" (String "m" (String "i" (String "n" (String ":" t)))) = None) by reflexivity. rewrite M0.
      rewrite match_prefix_app by auto. rewrite Em. cbn [obind].
      eexists. split; [ reflexivity | ]. split; [ now rewrite undefine_length | ].
      intros i s H. rewrite undefine_nth, (N1 i s H). cbn [option_map]. assert (K := cleaned_spec nfo s). destruct s as [ v | ]; [ | cbn [rejected]; rewrite K; cbn; tauto ].
      cbn [rejected]. destruct K as (K1 & K2). destruct (vlt (Some v) (Some m)) eqn:Lt.
      * assert (R : (v < m)%Q) by (now apply qlt_spec). split; [ intros _ | intro N; exfalso; apply N; right; right; exists t, m; auto ].
        assert (W : cleaned nfo (Some v) = None \/ cleaned nfo (Some v) = Some v) by (unfold cleaned; destruct (valid_range nfo) as [ [ ] | ], (valid_min nfo), (valid_max nfo), (status_fill nfo); repeat match goal with |- context [ if ?b then _ else _ ] => destruct b end; cbn; auto).
        destruct W as [ -> | -> ]; [ reflexivity | now rewrite Lt ].
      * split.
        { intros [ I | [ (t' & m' & E & _) | (t' & m' & E & E1 & E2) ] ].
          - rewrite K1 by exact I. reflexivity.
          - discriminate.
          - cbn in E. injection E as <-. rewrite Em in E1. injection E1 as <-. cbn in Lt. apply qlt_false in Lt. lra. }
        { intro N. rewrite K2 by tauto. now rewrite Lt. }
Qed.

(** ** the data *)
Lemma mask_loop_spec {A} (setv : option Q -> A) fill all : all <> [] -> forall data j, j < length all ->
  length (mask_loop setv fill all (skipn j all) data) = length data /\
  forall i d s, nth_error data i = Some d -> nth_error all ((j + i) mod length all) = Some s ->
    nth_error (mask_loop setv fill all (skipn j all) data) i = Some (if vnan s then setv fill else d).
Proof.
  intro Ha. induction data as [ | d data IH ]; intros j Hj; [ split; [ reflexivity | intros [ | ]; discriminate ] | ].
  assert (E : nth_error all j <> None) by now apply nth_error_Some. destruct (nth_error all j) as [ s | ] eqn:Es; [ clear E | congruence ].
  assert (Sk : skipn j all = s :: skipn (S j) all).
  { clear - Es. revert j Es. induction all as [ | a all IH ]; intros [ | j ] Es; try discriminate; cbn in *; [ congruence | ]. now apply IH. }
  rewrite Sk. cbn [mask_loop length].
  set (j' := if S j =? length all then 0 else S j).
  assert (Nx : match skipn (S j) all with [] => all | l => l end = skipn j' all).
  { unfold j'. destruct (Nat.eqb_spec (S j) (length all)) as [ E | E ]; [ rewrite E, skipn_all; reflexivity | ].
    destruct (skipn (S j) all) eqn:E'; [ | reflexivity ]. apply (f_equal (@length _)) in E'. rewrite skipn_length in E'. cbn in E'. lia. }
  assert (Nx' : match skipn (S j) all with [] => all | _ :: _ => skipn (S j) all end = skipn j' all) by (rewrite <- Nx; now destruct (skipn (S j) all)).
  rewrite Nx'. assert (Hj' : j' < length all) by (unfold j'; destruct (Nat.eqb_spec (S j) (length all)); lia).
  destruct (IH j' Hj') as (L & N). split; [ now rewrite L | ].
  intros [ | i ] d' s' Hd Hs; cbn [nth_error] in *.
  - rewrite Nat.add_0_r, Nat.mod_small in Hs by exact Hj. rewrite Es in Hs. injection Hd as <-. injection Hs as <-. reflexivity.
  - apply N; [ exact Hd | ]. rewrite <- Hs. f_equal. unfold j'. destruct (Nat.eqb_spec (S j) (length all)) as [ E | E ].
    + replace (j + S i) with (i + 1 * length all) by lia. rewrite Nat.mod_add by lia. now cbn.
    + f_equal. lia.
Qed.

(** a cell is replaced iff its status is rejected; a smaller status field is repeated *)
Theorem C30_mask {A} (setv : option Q -> A) number r nfo fill len data status k :
  good_rule number r -> status <> [] -> 1 <= k -> (Z.of_nat k < 2 ^ 31)%Z -> length data = k * length status ->
  exists res, mask number setv r nfo fill len data status = Ok res /\ length res = length data /\
    forall i d s, nth_error data i = Some d -> nth_error status (i mod length status) = Some s ->
      (rejected number r nfo s -> nth_error res i = Some (setv fill)) /\ (~ rejected number r nfo s -> nth_error res i = Some d).
Proof.
  intros G Hs Hk Hk2 Hl. unfold mask. rewrite Hl.
  assert (Ls : 0 < length status) by (destruct status; [ congruence | cbn; lia ]).
  destruct (Nat.eqb_spec (length status) 0); [ lia | ]. rewrite andb_false_r. cbn [orb].
  rewrite Nat.div_mul, Nat.mod_mul by lia. assert (Z1 : (Z.of_nat k >=? 2 ^ 31)%Z = false) by lia. rewrite Z1.
  assert (Z2 : length status <=? k * length status = true) by (apply Nat.leb_le; nia). rewrite Z2. cbn [Nat.eqb andb].
  destruct (apply_rule_spec number r nfo status G) as (sd & E & L & N). rewrite E. cbn [obind].
  assert (Hsd : sd <> []) by (destruct sd; [ cbn in L; lia | discriminate ]).
  destruct (mask_loop_spec setv fill sd Hsd data 0 ltac:(lia)) as (Lm & Nm). cbn [skipn] in *.
  eexists. split; [ reflexivity | ]. split; [ congruence | ]. intros i d s Hd Hss. rewrite <- L in Hss at 1. cbn [Nat.add] in Nm.
  assert (Hi : i mod length sd < length status) by (rewrite L; apply Nat.mod_upper_bound; lia).
  destruct (N _ _ Hss) as (N1 & N2). split; intro R.
  - rewrite (Nm i d None Hd (N1 R)). reflexivity.
  - rewrite (Nm i d s Hd (N2 R)). destruct s; [ reflexivity | ]. now cbn in R.
Qed.
(** the position: the status field has the first dimensions of the data *)
Theorem C30_position ds rest p q : inside ds p -> length p = length ds -> lin (ds ++ rest) (p ++ q) mod cells ds = lin ds p.
Proof.
  intros Hp _. assert (E : lin (ds ++ rest) (p ++ q) = lin ds p + cells ds * lin rest q).
  { clear -Hp. revert p Hp. induction ds as [ | d ds IH ]; intros p Hp; inversion Hp as [ | ? c ? cs Hc Hcs ]; subst; cbn; [ lia | ]. rewrite (IH cs) by exact Hcs. nia. }
  rewrite E. assert (lin ds p < cells ds) by now apply lin_lt. rewrite Nat.mul_comm, Nat.mod_add by lia. now apply Nat.mod_small.
Qed.
Theorem C30_lengths ds rest : check_lengths (ds ++ rest) ds = Ok tt.
Proof. induction ds as [ | d ds IH ]; [ reflexivity | ]. cbn. now rewrite Nat.eqb_refl. Qed.
Theorem C30_lengths_accepted : forall st var, check_lengths var st = Ok tt -> exists rest, var = st ++ rest.
Proof.
  induction st as [ | s st IH ]; intros var H; [ now exists var | ]. destruct var as [ | v var ]; [ discriminate | ]. cbn in H.
  destruct (Nat.eqb_spec s v) as [ -> | ]; [ | discriminate ]. destruct (IH var H) as (rest & ->). now exists rest.
Qed.
(** a status of a size that does not divide: the data are returned unmasked *)
Theorem C30_other_size {A} (setv : option Q -> A) number r nfo fill len data status : status <> [] -> (Z.of_nat (length data / length status) < 2 ^ 31)%Z ->
  length data mod length status <> 0 \/ length data < length status -> mask number setv r nfo fill len data status = Ok data.
Proof.
  intros Hs Hk H. unfold mask. assert (Ls : 0 < length status) by (destruct status; [ congruence | cbn; lia ]).
  destruct (Nat.eqb_spec (length status) 0); [ lia | ]. rewrite andb_false_r. cbn [orb].
  assert (Z1 : (Z.of_nat (length data / length status) >=? 2 ^ 31)%Z = false) by lia. rewrite Z1.
  destruct (Nat.eqb_spec (length data mod length status) 0), (Nat.leb_spec (length status) (length data)); try reflexivity. lia.
Qed.
(** no data and no status: a slice of fill values *)
Theorem C30_empty {A} (setv : option Q -> A) number r nfo fill len : mask number setv r nfo fill len [] [] = Ok (repeat (setv fill) len).
Proof. reflexivity. Qed.
(** finding: data without status data divides by zero and converts infinity to int *)
Theorem C30_no_status_refuted {A} (setv : option Q -> A) number r nfo fill len data : data <> [] -> mask number setv r nfo fill len data [] = UB.
Proof. destruct data; [ congruence | reflexivity ]. Qed.
(** unknown flags are refused *)
Theorem C30_unknown_flag number flag nfo sd : flag <> "all"%string -> match_prefix "max:" flag = None -> match_prefix "min:" flag = None ->
  flag <> "highest"%string -> flag <> "lowest"%string -> apply_rule number (Use flag) nfo sd = Throw.
Proof.
  intros H1 H2 H3 H4 H5. unfold apply_rule. destruct (String.eqb_spec flag "all"); [ congruence | ]. rewrite H2, H3.
  destruct (String.eqb_spec flag "highest"); [ congruence | ]. destruct (String.eqb_spec flag "lowest"); [ congruence | ]. reflexivity.
Qed.

(** ** highest and lowest *)
Lemma extreme_loop_hang pick : forall fuel e v l, extreme_loop fuel pick e (v :: l) = Hang.
Proof. induction fuel as [ | n IH ]; intros; [ reflexivity | ]. cbn. apply IH. Qed.
Lemma forward_nan sd : In None sd -> exists l, forward sd = None :: l.
Proof. induction sd as [ | [ v | ] sd IH ]; intros H; [ destruct H | destruct H as [ H | H ]; [ discriminate | now apply IH ] | now exists sd ]. Qed.
Lemma forward_defined sd : ~ In None sd -> forward sd = [].
Proof. induction sd as [ | [ v | ] sd IH ]; intros H; [ reflexivity | apply IH; intro; apply H; now right | exfalso; apply H; now left ]. Qed.
(** finding: a status with an undefined value (after valid range and fill value) never ends *)
Theorem C30_extreme_hangs pick sd : In None sd -> (forall fuel, extreme_loop fuel pick None (forward sd) = Hang) /\ defined_extreme pick sd = Hang.
Proof.
  intro H. destruct (forward_nan sd H) as (l & E). unfold defined_extreme. rewrite E. split; [ intro fuel; apply extreme_loop_hang | apply extreme_loop_hang ].
Qed.
(** ... and without one nothing is masked *)
Theorem C30_extreme_masks_nothing number flag nfo sd : flag = "highest"%string \/ flag = "lowest"%string ->
  (forall s, In s sd -> exists v, s = Some v /\ ~ invalid nfo v) -> apply_rule number (Use flag) nfo sd = Ok sd.
Proof.
  intros F H. unfold apply_rule. assert (C := cleaned_list nfo sd). cbv zeta in C. rewrite C. clear C.
  assert (E : map (cleaned nfo) sd = sd).
  { rewrite <- (map_id sd) at 2. apply map_ext_in. intros s Hs. destruct (H s Hs) as (v & -> & Hv). now apply (cleaned_spec nfo (Some v)). }
  rewrite E. assert (N : ~ In None sd) by (intro N; destruct (H _ N) as (v & Q & _); discriminate).
  assert (X : forall pick, defined_extreme pick sd = Ok None) by (intro pick; unfold defined_extreme; now rewrite forward_defined).
  destruct F as [ -> | -> ]; cbn [String.eqb Ascii.eqb Bool.eqb]; [ change (("highest" =? "all")%string) with false | change (("lowest" =? "all")%string) with false ].
  - change (match_prefix "max:" "highest") with (@None string). change (match_prefix "min:" "highest") with (@None string). rewrite X. reflexivity.
  - change (match_prefix "max:" "lowest") with (@None string). change (match_prefix "min:" "lowest") with (@None string). rewrite X. reflexivity.
Qed.
Theorem C30_highest_refuted : exists number nfo sd, sd = [Some 1%Q; Some 2%Q; Some 3%Q] /\ apply_rule number (Use "highest") nfo sd = Ok sd.
Proof. exists (fun _ => Throw), {| valid_min := None; valid_max := None; valid_range := None; status_fill := None |}. eexists. split; reflexivity. Qed.

(** ** the configuration *)
(** finding: automatic configuration selects no variable, whatever the file contains *)
Theorem C30_autoconf_refuted find_name flag_vars conf l : autoconf find_name flag_vars conf = Ok l -> l = [].
Proof.
  unfold autoconf. destruct (_ || _); [ | discriminate ]. intro H. injection H as <-. induction flag_vars as [ | (v & s) vs IH ]; [ reflexivity | ].
  cbn. rewrite IH. destruct s as [ [ | a [ | b c ] ] | ]; reflexivity.
Qed.
Section Chain.
  Context {A : Type} (number : string -> outcome Q) (dbl : A -> option Q) (setv : option Q -> A) (read : string -> nat -> outcome (list A)) (conf : string -> option (@entry A)).
  Local Notation get := (get_slice number dbl setv).
  (** a variable without a rule is returned as read *)
  Theorem C30_unconfigured n var pos : conf var = None -> get (S n) read conf var pos = read var pos.
  Proof. intro E. cbn. destruct (read var pos); cbn; try reflexivity. now rewrite E. Qed.
  (** the status of the same file is taken after its own rule, of another file as read, and of the variable itself *)
  Theorem C30_status n var pos e data status : conf var = Some e -> read var pos = Ok data -> status <> [] ->
    match e_other e with Some rd => rd (e_status e) pos = Ok status | None => if String.eqb (e_status e) var then data = status else get n read conf (e_status e) pos = Ok status end ->
    get (S n) read conf var pos = mask number setv (e_rule e) (e_info e) (e_fill e) (e_length e) data (map dbl status).
  Proof.
    intros E R Hs H. cbn. rewrite R. cbn [obind]. rewrite E. destruct (e_other e) as [ rd | ].
    - rewrite H. cbn. now destruct status.
    - destruct (String.eqb (e_status e) var); [ now subst | ]. rewrite H. cbn. now destruct status.
  Qed.
  (** finding: two variables that are the status of each other *)
  Theorem C30_cycle_refuted a b ea eb : a <> b -> conf a = Some ea -> conf b = Some eb -> e_other ea = None -> e_other eb = None ->
    e_status ea = b -> e_status eb = a -> (forall v pos, exists l, read v pos = Ok l) -> forall fuel pos, get fuel read conf a pos = Hang /\ get fuel read conf b pos = Hang.
  Proof.
    intros N Ea Eb Oa Ob Sa Sb R. induction fuel as [ | n IH ]; intro pos; [ split; reflexivity | ].
    split; cbn.
    - destruct (R a pos) as (l & ->). cbn. rewrite Ea, Oa, Sa. destruct (String.eqb_spec b a); [ congruence | ]. rewrite (proj2 (IH pos)). reflexivity.
    - destruct (R b pos) as (l & ->). cbn. rewrite Eb, Ob, Sb. destruct (String.eqb_spec a b); [ congruence | ]. rewrite (proj1 (IH pos)). reflexivity.
  Qed.
End Chain.

Example C30_nonvacuous :
  let nfo := {| valid_min := Some 0%Q; valid_max := None; valid_range := None; status_fill := Some 9%Q |} in
  let number := fun t => if String.eqb t "3" then Ok 3%Q else Throw in
  good_rule number (Use "max:3") /\
  mask number (fun _ => (-1)%Z) (Use "max:3") nfo None 0 [10; 20; 30; 40; 50; 60; 70; 80; 90; 100]%Z [Some 1%Q; Some 4%Q; None; Some (-1)%Q; Some 9%Q] =
    Ok [10; -1; -1; -1; -1; 60; -1; -1; -1; -1]%Z /\
  mask number (fun _ => (-1)%Z) (Values [7; 2]%Q) nfo None 0 [10; 20; 30]%Z [Some 2%Q; Some 3%Q; Some 7%Q] = Ok [10; -1; 30]%Z.
Proof.
  split; [ | split; reflexivity ]. right. exists "3"%string, 3%Q. split; [ discriminate | ]. split; [ reflexivity | ]. split; [ reflexivity | now left ].
Qed.
Print Assumptions C30_mask.
Print Assumptions C30_position.
Print Assumptions C30_lengths.
Print Assumptions C30_lengths_accepted.
Print Assumptions C30_other_size.
Print Assumptions C30_empty.
Print Assumptions C30_no_status_refuted.
Print Assumptions C30_unknown_flag.
Print Assumptions C30_extreme_hangs.
Print Assumptions C30_extreme_masks_nothing.
Print Assumptions C30_highest_refuted.
Print Assumptions C30_autoconf_refuted.
Print Assumptions C30_unconfigured.
Print Assumptions C30_status.
Print Assumptions C30_cycle_refuted.
