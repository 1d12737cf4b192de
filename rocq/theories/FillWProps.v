(** C37: filling a file from another one copies every cell to the position with the same coordinates. *)
From Coq Require Import String List Bool Arith Lia.
From Verif Require Import Base IndexSpec FillWModel.
Import ListNotations.
Local Open Scope list_scope.
Local Open Scope nat_scope.

(** ** Slices and positions *)
Lemma shift_map st idx : length st = length idx -> shift st idx = map (fun x => fst x + snd x) (combine st idx).
Proof.
  revert idx; induction st as [|s st IH]; intros [|i idx] L; cbn in *; try discriminate; [reflexivity|].
  rewrite IH by lia. reflexivity.
Qed.

Lemma positions_length dims p : In p (positions dims) -> length p = length dims.
Proof.
  revert p; induction dims as [|d ds IH]; cbn; intros p H.
  - destruct H as [<-|[]]. reflexivity.
  - apply in_flat_map in H as (x & Hx & H). apply in_map_iff in H as (i & <- & _). cbn. rewrite (IH x Hx). reflexivity.
Qed.

Lemma in_positions dims p : In p (positions dims) <-> Forall2 (fun d i => i < d) dims p.
Proof.
  revert p; induction dims as [|d ds IH]; cbn; intros p.
  - split; [intros [<-|[]]; constructor|intro H; inversion H; auto].
  - rewrite in_flat_map. split.
    + intros (x & Hx & H). apply in_map_iff in H as (i & <- & Hi). apply in_seq in Hi. constructor; [lia|].
      apply IH. exact Hx.
    + intro H. inversion H as [|? i ? x Hi Hx]; subst. exists x. split; [apply IH; exact Hx|].
      apply in_map_iff. exists i. split; [reflexivity|]. apply in_seq. lia.
Qed.

(** the slice with the entries of [tr] of size one, driven by offsets in the other entries *)
Fixpoint embed (tr : string -> bool) (sb : list ent) (c : list nat) : list nat :=
  match sb with
  | [] => []
  | e :: sb' =>
      if tr (e_name e) then e_start e :: embed tr sb' c
      else match c with
           | [] => []
           | i :: c' => (e_start e + i) :: embed tr sb' c'
           end
  end.

Definition core (tr : string -> bool) (sb : list ent) : list ent := filter (fun e => negb (tr (e_name e))) sb.

Lemma core_map tr sb : map e_name (core tr sb) = filter (fun n => negb (tr n)) (map e_name sb).
Proof.
  unfold core. induction sb as [|e sb IH]; [reflexivity|]. cbn. destruct (tr (e_name e)); cbn; [exact IH|]. rewrite IH. reflexivity.
Qed.

Lemma flat_map_single {A B} (f : A -> B) l : flat_map (fun x => [f x]) l = map f l.
Proof. induction l; cbn; congruence. Qed.

Lemma flat_map_map {A B C} (f : A -> B) (g : B -> list C) l : flat_map g (map f l) = flat_map (fun x => g (f x)) l.
Proof. induction l; cbn; congruence. Qed.

Lemma map_flat_map {A B C} (f : B -> C) (g : A -> list B) l : map f (flat_map g l) = flat_map (fun x => map f (g x)) l.
Proof. induction l; cbn; [reflexivity|]. rewrite map_app. congruence. Qed.

Lemma block_embed tr sb :
  (forall e, In e sb -> tr (e_name e) = true -> e_size e = 1) ->
  block sb = map (embed tr sb) (positions (map e_size (core tr sb))).
Proof.
  unfold block. induction sb as [|e sb IH]; intro H; [reflexivity|].
  cbn [map]. cbn [positions]. specialize (IH (fun x Hx => H x (or_intror Hx))).
  unfold core. cbn [filter]. destruct (tr (e_name e)) eqn:T; cbn [negb].
  - rewrite (H e (or_introl eq_refl) T). cbn [seq map]. rewrite flat_map_single, map_map.
    cbn [shift]. fold (core tr sb). cbn [embed]. rewrite T.
    transitivity (map (cons (e_start e)) (map (shift (map e_start sb)) (positions (map e_size sb)))).
    + rewrite map_map. apply map_ext. intro. rewrite Nat.add_0_r. reflexivity.
    + rewrite IH, map_map. reflexivity.
  - fold (core tr sb). cbn [map positions]. rewrite !map_flat_map.
    transitivity (flat_map (fun p => map (fun i => e_start e + i :: p) (seq 0 (e_size e)))
                    (map (shift (map e_start sb)) (positions (map e_size sb)))).
    + rewrite flat_map_map. apply flat_map_ext. intro p. rewrite map_map. reflexivity.
    + rewrite IH, flat_map_map. apply flat_map_ext. intro p. rewrite map_map. apply map_ext. intro i.
      cbn [embed]. rewrite T. reflexivity.
Qed.

Lemma embed_fun tr sb f :
  embed tr sb (map f (map e_name (core tr sb))) =
  map (fun e => e_start e + (if tr (e_name e) then 0 else f (e_name e))) sb.
Proof.
  induction sb as [|e sb IH]; [reflexivity|]. unfold core. cbn [filter embed map].
  destruct (tr (e_name e)) eqn:T; cbn [negb].
  - fold (core tr sb). rewrite IH, Nat.add_0_r. reflexivity.
  - cbn [map]. fold (core tr sb). rewrite IH. reflexivity.
Qed.

(** the names of a list can be given any values *)
Lemma name_values (ns : list string) c : NoDup ns -> length c = length ns -> exists f : string -> nat, map f ns = c.
Proof.
  revert c; induction ns as [|n ns IH]; intros [|x c] ND L; try discriminate.
  - exists (fun _ => 0). reflexivity.
  - inversion ND as [|? ? NI ND']; subst. destruct (IH c ND') as [f Hf]; [cbn in L; lia|].
    exists (fun m => if String.eqb m n then x else f m). cbn. rewrite String.eqb_refl. f_equal.
    rewrite <- Hf. apply map_ext_in. intros m Hm. destruct (String.eqb_spec m n) as [->|]; [contradiction|reflexivity].
Qed.

Lemma combine_map {A B C} (f : A -> B) (g : A -> C) l : combine (map f l) (map g l) = map (fun x => (f x, g x)) l.
Proof. induction l; cbn; congruence. Qed.

Lemma Forall2_map_l {A} (f : A -> nat) (g : A -> nat) (l : list A) :
  Forall2 (fun d i => i < d) (map f l) (map g l) <-> forall x, In x l -> g x < f x.
Proof.
  induction l as [|a l IH]; cbn.
  - split; [intros _ x []|constructor].
  - split.
    + intro H. inversion H; subst. intros x [<-|Hx]; [assumption|]. apply IH; assumption.
    + intro H. constructor; [apply H; auto|]. apply IH. auto.
Qed.

(** what one pair of slices copies *)
Lemma copy_slice_spec tri tro isb osb :
  (forall e, In e isb -> tri (e_name e) = true -> e_size e = 1) ->
  (forall e, In e osb -> tro (e_name e) = true -> e_size e = 1) ->
  map e_name (core tri isb) = map e_name (core tro osb) ->
  map e_size (core tri isb) = map e_size (core tro osb) \/ (exists e, In e (core tri isb) /\ e_size e = 0) ->
  NoDup (map e_name (core tri isb)) ->
  exists cs, copy_slice (isb, osb) = Ok cs /\
  forall p q, In (p, q) cs <->
    exists f : string -> nat,
      (forall e, In e (core tri isb) -> f (e_name e) < e_size e) /\
      p = map (fun e => e_start e + (if tri (e_name e) then 0 else f (e_name e))) isb /\
      q = map (fun e => e_start e + (if tro (e_name e) then 0 else f (e_name e))) osb.
Proof.
  intros Hi Ho EN ES ND. unfold copy_slice; cbn [fst snd].
  rewrite (block_embed tri isb Hi), (block_embed tro osb Ho).
  destruct ES as [ES|(e0 & Ie0 & Z0)].
  2: { exists []. split.
       - rewrite map_length. replace (positions (map e_size (core tri isb))) with (@nil (list nat)); [reflexivity|].
         symmetry. destruct (positions (map e_size (core tri isb))) as [|x l] eqn:E; [reflexivity|exfalso].
         assert (Ix : In x (positions (map e_size (core tri isb)))) by (rewrite E; left; reflexivity).
         apply in_positions in Ix. clear -Ix Ie0 Z0. revert x Ix.
         induction (core tri isb) as [|e r IH]; intros x Ix; [destruct Ie0|].
         inversion Ix as [|? ? ? ? Hlt Hr]; subst. destruct Ie0 as [->|I]; [lia|]. exact (IH I _ Hr).
       - intros p q. split; [intros []|]. intros (f & Hf & _). specialize (Hf e0 Ie0). lia. }
  rewrite <- ES.
  set (P := positions (map e_size (core tri isb))).
  exists (map (fun c => (embed tri isb c, embed tro osb c)) P). split.
  - rewrite !map_length. destruct (length P =? 0) eqn:L.
    + destruct P; [reflexivity|discriminate].
    + rewrite Nat.eqb_refl, combine_map. reflexivity.
  - intros p q. rewrite in_map_iff. split.
    + intros (c & [= <- <-] & Hc). pose proof (positions_length _ _ Hc) as Lc. rewrite map_length in Lc.
      destruct (name_values (map e_name (core tri isb)) c ND) as [f Hf]; [rewrite map_length; exact Lc|].
      exists f. rewrite <- Hf. split.
      * apply in_positions in Hc. rewrite <- Hf in Hc. rewrite map_map in Hc.
        apply (proj1 (Forall2_map_l e_size (fun e => f (e_name e)) _)). exact Hc.
      * split; [apply embed_fun|]. rewrite EN. apply embed_fun.
    + intros (f & Hf & -> & ->). exists (map f (map e_name (core tri isb))). split.
      * rewrite embed_fun. rewrite EN, embed_fun. reflexivity.
      * apply in_positions. rewrite map_map. apply Forall2_map_l. exact Hf.
Qed.

(** ** Setting slices by name *)
Definition assign (a : list (string * nat)) (sb : list ent) : list ent :=
  map (fun e => match lookup (e_name e) a with
                | Some k => Ent (e_name e) k 1 (e_max e) (e_unlim e)
                | None => e
                end) sb.

Definition allowed (sb : list ent) (n : string) (k : nat) : Prop :=
  forall e, In e sb -> e_name e = n -> e_unlim e = true \/ k < e_max e.

Lemma assign_names a sb : map e_name (assign a sb) = map e_name sb.
Proof.
  unfold assign. rewrite map_map. apply map_ext. intro e. destruct (lookup (e_name e) a); reflexivity.
Qed.

Lemma lookup_app {B} n (a b : list (string * B)) :
  lookup n (a ++ b) = match lookup n a with Some x => Some x | None => lookup n b end.
Proof.
  unfold lookup. induction a as [|[m x] a IH]; [reflexivity|]. cbn [app find fst].
  destruct (String.eqb m n); [reflexivity|exact IH].
Qed.

Lemma lookup_none {B} n (a : list (string * B)) : ~ In n (map fst a) -> lookup n a = None.
Proof.
  unfold lookup. induction a as [|[m x] a IH]; [reflexivity|]. cbn. intro H.
  destruct (String.eqb_spec m n) as [->|]; [exfalso; auto|]. apply IH. auto.
Qed.

Lemma lookup_in {B} n (a : list (string * B)) x : NoDup (map fst a) -> (lookup n a = Some x <-> In (n, x) a).
Proof.
  unfold lookup. induction a as [|[m y] a IH]; cbn; [intuition discriminate|]. intro ND.
  inversion ND as [|? ? NI ND']; subst. destruct (String.eqb_spec m n) as [->|N]; cbn.
  - split; [intros [= ->]; auto|]. intros [[= ->]|I]; [reflexivity|]. exfalso. apply NI. apply (in_map fst) in I. exact I.
  - rewrite (IH ND'). split; [auto|]. intros [[= -> ->]|I]; [contradiction|exact I].
Qed.

Lemma set_ss_assign a sb n k :
  In n (map e_name sb) -> ~ In n (map fst a) -> allowed sb n k ->
  set_ss (assign a sb) n k 1 = Ok (assign (a ++ [(n, k)]) sb).
Proof.
  intros I NI Al. unfold set_ss.
  destruct (find (fun e => String.eqb (e_name e) n) (assign a sb)) as [e|] eqn:F.
  - apply find_some in F as [Ie Ee]. apply String.eqb_eq in Ee. unfold assign in Ie.
    apply in_map_iff in Ie as (e0 & E0 & I0).
    assert (n0 : e_name e0 = n) by (destruct (lookup (e_name e0) a); subst; exact Ee || reflexivity).
    rewrite n0, (lookup_none n a NI) in E0. subst e0.
    destruct (Al e I0 Ee) as [U|L].
    + rewrite U. cbn. f_equal. unfold assign. rewrite map_map. apply map_ext. intro x. unfold set_ent.
      rewrite lookup_app. destruct (lookup (e_name x) a) as [y|] eqn:La; cbn [e_name].
      * destruct (String.eqb_spec (e_name x) n) as [Qx|]; [rewrite Qx, (lookup_none n a NI) in La; discriminate|reflexivity].
      * unfold lookup; cbn. rewrite (String.eqb_sym n). destruct (String.eqb (e_name x) n); reflexivity.
    + replace (e_max e <? k + 1) with false by (symmetry; apply Nat.ltb_ge; lia). rewrite andb_false_r.
      f_equal. unfold assign. rewrite map_map. apply map_ext. intro x. unfold set_ent.
      rewrite lookup_app. destruct (lookup (e_name x) a) as [y|] eqn:La; cbn [e_name].
      * destruct (String.eqb_spec (e_name x) n) as [Qx|]; [rewrite Qx, (lookup_none n a NI) in La; discriminate|reflexivity].
      * unfold lookup; cbn. rewrite (String.eqb_sym n). destruct (String.eqb (e_name x) n); reflexivity.
  - exfalso. rewrite <- (assign_names a sb) in I. apply in_map_iff in I as (e & E & Ie).
    apply (find_none _ _ F) in Ie. rewrite E, String.eqb_refl in Ie. discriminate.
Qed.

Lemma set_ss_inv sb n st sz sb' : set_ss sb n st sz = Ok sb' -> sb' = map (set_ent n st sz) sb.
Proof.
  unfold set_ss. destruct (find _ sb); [|discriminate]. destruct (negb _ && _); [discriminate|]. congruence.
Qed.

(** ** Translated dimensions *)
Lemma translate_spec shape trs sb a :
  NoDup (map fst trs) -> map e_name sb = shape ->
  (forall n, In n (map fst a) -> ~ In n (map fst trs)) ->
  (forall n ks, In (n, ks) trs -> In n shape -> exists k, ks = [k] /\ allowed sb n k) ->
  translate shape trs (assign a sb) =
  Ok (assign (a ++ flat_map (fun t : string * list nat => if mem (fst t) shape then map (fun k => (fst t, k)) (snd t) else []) trs) sb).
Proof.
  intros ND En. unfold translate. revert a.
  induction trs as [|[n ks] trs IH]; intros a Da Hk.
  - cbn. rewrite app_nil_r. reflexivity.
  - inversion ND as [|? ? NI ND']; subst. cbn [ofold flat_map fst snd].
    destruct (mem n (map e_name sb)) eqn:M.
    + unfold mem in M. apply existsb_exists in M as (m & Im & Em). apply String.eqb_eq in Em as <-.
      destruct (Hk n ks (or_introl eq_refl) Im) as (k & -> & Al).
      rewrite set_ss_assign; [|exact Im|intro Q; exact (Da n Q (or_introl eq_refl))|exact Al].
      cbn [obind map app]. rewrite IH.
      * rewrite <- app_assoc. reflexivity.
      * exact ND'.
      * intros m Im' Ix. rewrite map_app in Im'. apply in_app_or in Im' as [Im'|[<-|[]]].
        -- exact (Da m Im' (or_intror Ix)).
        -- exact (NI Ix).
      * intros m l Il Is. apply Hk; [right; exact Il|exact Is].
    + cbn [obind app]. apply IH; [exact ND'| |].
      * intros m Im' Ix. exact (Da m Im' (or_intror Ix)).
      * intros m l Il Is. apply Hk; [right; exact Il|exact Is].
Qed.

(** ** Expanding the slices *)
(** all choices of one pair of positions for each dimension of [names] that has slices *)
Fixpoint choices (ms : list (string * (option (list (nat * nat)) * bool))) (names : list string)
    (acc : list (list (string * (nat * nat)))) : list (list (string * (nat * nat))) :=
  match names with
  | [] => acc
  | n :: names' =>
      match lookup n ms with
      | Some (Some sl, _) => choices ms names' (flat_map (fun a => map (fun io => a ++ [(n, io)]) sl) acc)
      | _ => choices ms names' acc
      end
  end.

Definition ins (a : list (string * (nat * nat))) : list (string * nat) := map (fun x => (fst x, fst (snd x))) a.
Definition outs (a : list (string * (nat * nat))) : list (string * nat) := map (fun x => (fst x, snd (snd x))) a.

Lemma omapM_ok {X Y} (f : X -> outcome Y) g l : (forall x, In x l -> f x = Ok (g x)) -> omapM f l = Ok (map g l).
Proof.
  induction l as [|x l IH]; intro H; cbn; [reflexivity|].
  rewrite H by (left; reflexivity). cbn. rewrite IH by (intros; apply H; right; assumption). reflexivity.
Qed.

Lemma expand_spec ms bi bo isb osb names acc :
  NoDup names ->
  (forall n, In n names -> In n (map e_name isb) /\ In n (map e_name osb)) ->
  (forall n, In n names -> ~ In n (map fst bi) /\ ~ In n (map fst bo)) ->
  (forall a n, In a acc -> In n names -> ~ In n (map fst a)) ->
  (forall n sl b i o, In n names -> lookup n ms = Some (Some sl, b) -> In (i, o) sl -> allowed isb n i /\ allowed osb n o) ->
  expand ms names (map (fun a => (assign (bi ++ ins a) isb, assign (bo ++ outs a) osb)) acc) =
  Ok (map (fun a => (assign (bi ++ ins a) isb, assign (bo ++ outs a) osb)) (choices ms names acc)).
Proof.
  revert acc. induction names as [|n names IH]; intros acc ND In1 In2 Hacc Hsl; [reflexivity|].
  inversion ND as [|? ? NI ND']; subst. cbn [expand choices].
  assert (Rest : forall acc', (forall a m, In a acc' -> In m names -> ~ In m (map fst a)) ->
    expand ms names (map (fun a => (assign (bi ++ ins a) isb, assign (bo ++ outs a) osb)) acc') =
    Ok (map (fun a => (assign (bi ++ ins a) isb, assign (bo ++ outs a) osb)) (choices ms names acc'))).
  { intros acc' H'. apply IH; [exact ND'| | |exact H'|].
    - intros m Im. apply In1. right; exact Im.
    - intros m Im. apply In2. right; exact Im.
    - intros m sl b i o Im. apply Hsl. right; exact Im. }
  destruct (lookup n ms) as [[[sl|] b]|] eqn:Lk; try (apply Rest; intros a m Ia Im; apply Hacc; [exact Ia|right; exact Im]).
  rewrite omapM_ok with (g := fun pr : list ent * list ent => map (fun io : nat * nat =>
      (map (set_ent n (fst io) 1) (fst pr), map (set_ent n (snd io) 1) (snd pr))) sl).
  - cbn [obind]. rewrite map_map. cbn [fst snd].
    transitivity (expand ms names (map (fun a => (assign (bi ++ ins a) isb, assign (bo ++ outs a) osb))
                    (flat_map (fun a => map (fun io => a ++ [(n, io)]) sl) acc))).
    + f_equal. rewrite map_flat_map, <- flat_map_concat_map. 
      assert (G : forall l, (forall a, In a l -> In a acc) ->
        flat_map (fun a => map (fun io : nat * nat => (map (set_ent n (fst io) 1) (assign (bi ++ ins a) isb),
                                         map (set_ent n (snd io) 1) (assign (bo ++ outs a) osb))) sl) l =
        flat_map (fun a => map (fun a0 => (assign (bi ++ ins a0) isb, assign (bo ++ outs a0) osb))
                             (map (fun io => a ++ [(n, io)]) sl)) l).
      2: { apply G. auto. }
      intros l. induction l as [|a l IHl]; intro Hl; [reflexivity|]. cbn [flat_map]. f_equal.
      2: { apply IHl. intros x Hx. apply Hl. right; exact Hx. }
      rewrite map_map. apply map_ext_in. intros [i o] Iio. cbn [fst snd].
      assert (Ia : In a acc) by (apply Hl; left; reflexivity).
      pose proof (Hacc a n Ia (or_introl eq_refl)) as Na.
      destruct (In2 n (or_introl eq_refl)) as [Nbi Nbo]. destruct (In1 n (or_introl eq_refl)) as [Ii Io].
      destruct (Hsl n sl b i o (or_introl eq_refl) Lk Iio) as [Ai Ao].
      assert (Xi : ~ In n (map fst (bi ++ ins a))).
      { rewrite map_app. unfold ins. rewrite map_map. cbn. intro Q. apply in_app_or in Q as [Q|Q]; auto. }
      assert (Xo : ~ In n (map fst (bo ++ outs a))).
      { rewrite map_app. unfold outs. rewrite map_map. cbn. intro Q. apply in_app_or in Q as [Q|Q]; auto. }
      pose proof (set_ss_assign (bi ++ ins a) isb n i Ii Xi Ai) as Si.
      pose proof (set_ss_assign (bo ++ outs a) osb n o Io Xo Ao) as So.
      rewrite <- (set_ss_inv _ _ _ _ _ Si), <- (set_ss_inv _ _ _ _ _ So).
      unfold ins, outs. rewrite !map_app, !app_assoc. reflexivity.
    + apply Rest. intros a m Ia Im. apply in_flat_map in Ia as (a0 & Ia0 & Ia). apply in_map_iff in Ia as (io & <- & _).
      rewrite map_app. cbn. intro Q. apply in_app_or in Q as [Q|[Q|[]]].
      * exact (Hacc a0 m Ia0 (or_intror Im) Q).
      * subst m. exact (NI Im).
  - intros pr Ipr. apply in_map_iff in Ipr as (a & <- & Ia). apply omapM_ok. intros [i o] Iio. cbn [fst snd].
    pose proof (Hacc a n Ia (or_introl eq_refl)) as Na.
    destruct (In2 n (or_introl eq_refl)) as [Nbi Nbo]. destruct (In1 n (or_introl eq_refl)) as [Ii Io].
    destruct (Hsl n sl b i o (or_introl eq_refl) Lk Iio) as [Ai Ao].
    assert (Xi : ~ In n (map fst (bi ++ ins a))).
    { rewrite map_app. unfold ins. rewrite map_map. cbn. intro Q. apply in_app_or in Q as [Q|Q]; auto. }
    assert (Xo : ~ In n (map fst (bo ++ outs a))).
    { rewrite map_app. unfold outs. rewrite map_map. cbn. intro Q. apply in_app_or in Q as [Q|Q]; auto. }
    pose proof (set_ss_assign (bi ++ ins a) isb n i Ii Xi Ai) as Si.
    pose proof (set_ss_assign (bo ++ outs a) osb n o Io Xo Ao) as So.
    rewrite Si; cbn [obind]; rewrite So; cbn [obind].
    rewrite (set_ss_inv _ _ _ _ _ Si), (set_ss_inv _ _ _ _ _ So). reflexivity.
Qed.

Definition sliced (ms : list (string * (option (list (nat * nat)) * bool))) (n : string) : bool :=
  match lookup n ms with Some (Some _, _) => true | _ => false end.

Lemma choices_spec ms names acc a :
  In a (choices ms names acc) <->
  exists a0 b, In a0 acc /\ a = a0 ++ b /\ map fst b = filter (sliced ms) names /\
    forall n io, In (n, io) b -> exists sl bd, lookup n ms = Some (Some sl, bd) /\ In io sl.
Proof.
  revert acc a. induction names as [|n names IH]; intros acc a; cbn [choices filter].
  - split.
    + intro I. exists a, []. rewrite app_nil_r. repeat (split; auto). intros ? ? [].
    + intros (a0 & b & I & -> & E & _). destruct b; [|discriminate]. rewrite app_nil_r. exact I.
  - unfold sliced at 1. destruct (lookup n ms) as [[[sl|] bd]|] eqn:Lk; try apply IH.
    rewrite IH. split.
    + intros (a0 & b & I & -> & E & H). apply in_flat_map in I as (a1 & I1 & I). apply in_map_iff in I as (io & <- & Iio).
      exists a1, ((n, io) :: b). split; [exact I1|]. split; [rewrite <- app_assoc; reflexivity|].
      split; [cbn; rewrite E; reflexivity|]. intros m x [[= <- <-]|Ix]; [eauto|]. apply H. exact Ix.
    + intros (a0 & b & I & -> & E & H). destruct b as [|[m io] b]; [discriminate|]. cbn in E. injection E as -> E.
      exists (a0 ++ [(n, io)]), b. split.
      * apply in_flat_map. exists a0. split; [exact I|]. apply in_map_iff. exists io. split; [reflexivity|].
        destruct (H n io (or_introl eq_refl)) as (sl' & bd' & L' & Iio). rewrite Lk in L'. injection L' as <- <-. exact Iio.
      * split; [rewrite <- app_assoc; reflexivity|]. split; [exact E|].
        intros m x Ix. apply H. right; exact Ix.
Qed.

Lemma omapM_rel {X Y} (f : X -> outcome Y) (P : X -> Y -> Prop) l :
  (forall x, In x l -> exists y, f x = Ok y /\ P x y) -> exists ys, omapM f l = Ok ys /\ Forall2 P l ys.
Proof.
  induction l as [|x l IH]; intro H; [exists []; split; [reflexivity|constructor]|].
  destruct (H x (or_introl eq_refl)) as (y & E & Py). destruct IH as (ys & Es & F); [intros; apply H; right; assumption|].
  exists (y :: ys). cbn. rewrite E. cbn. rewrite Es. split; [reflexivity|constructor; assumption].
Qed.

(** ** Where a position of a dimension goes: the specification *)
Section Spec.
Context {V : Type} (eqb : V -> V -> bool).
Notation dim := (dim V).

(** the value is not among the first [n] of the list *)
Definition absent (l : list V) (n : nat) (v : V) : Prop :=
  forall j w, j < n -> nth_error l j = Some w -> eqb w v = false.

Definition absentb (l : list V) (n : nat) (v : V) : bool := negb (existsb (fun w => eqb w v) (firstn n l)).

(** number of values before position [i] of the input that are not in the output *)
Definition new_before (ic oc : list V) (olen i : nat) : nat :=
  length (filter (absentb oc olen) (firstn i ic)).

(** input position [i] goes to output position [j]: to the first position with the same coordinate,
    else behind the end, in order, if the output dimension is unlimited; dimensions without
    coordinates are appended if unlimited and kept if they have the same length *)
Definition goes (d o : dim) (i j : nat) : Prop :=
  match d_coord d, d_coord o with
  | Some ic, Some oc =>
      exists v, nth_error ic i = Some v /\
        ((j < d_len o /\ (exists w, nth_error oc j = Some w /\ eqb w v = true) /\ absent oc j v) \/
         (absent oc (d_len o) v /\ d_unlim o = true /\ j = d_len o + new_before ic oc (d_len o) i))
  | _, _ => (d_unlim o = true /\ j = d_len o + i) \/ (d_unlim o = false /\ d_len d = d_len o /\ j = i)
  end.

(** all positions of the dimension have a place in the output *)
Definition usable (d o : dim) : Prop :=
  match d_coord d, d_coord o with
  | Some _, Some _ => forall i, i < d_len d -> exists j, goes d o i j
  | _, _ => d_unlim o = true \/ d_len d = d_len o
  end.

Definition wf_dim (d : dim) : Prop := match d_coord d with Some c => length c = d_len d | None => True end.

Lemma find_pos_spec l n v : n <= length l ->
  (find_pos eqb l n v = n /\ absent l n v) \/
  (find_pos eqb l n v < n /\ (exists w, nth_error l (find_pos eqb l n v) = Some w /\ eqb w v = true) /\
   absent l (find_pos eqb l n v) v).
Proof.
  revert l; induction n as [|n IH]; intros l L.
  - left. split; [destruct l; reflexivity|]. intros j w Hj. lia.
  - destruct l as [|x l]; [cbn in L; lia|]. cbn [find_pos]. destruct (eqb x v) eqn:E.
    + right. split; [lia|]. split; [exists x; auto|]. intros j w Hj. lia.
    + destruct (IH l ltac:(cbn in L; lia)) as [[F A]|(F & W & A)].
      * left. split; [lia|]. intros [|j] w Hj N; cbn in N; [congruence|]. apply (A j w); [lia|exact N].
      * right. split; [lia|]. split; [exact W|]. intros [|j] w Hj N; cbn in N; [congruence|]. apply (A j w); [lia|exact N].
Qed.

Lemma absentb_spec l n v : absentb l n v = true <-> absent l n v.
Proof.
  unfold absentb, absent. rewrite negb_true_iff. split.
  - intros E j w Hj N. destruct (eqb w v) eqn:Q; [|reflexivity]. exfalso.
    assert (existsb (fun w => eqb w v) (firstn n l) = true); [|congruence].
    apply existsb_exists. exists w. split; [|exact Q]. apply nth_error_In with j.
    rewrite nth_error_firstn. replace (j <? n) with true by (symmetry; apply Nat.ltb_lt; lia). exact N.
  - intro H. destruct (existsb _ _) eqn:E; [|reflexivity]. exfalso.
    apply existsb_exists in E as (w & I & Q). apply In_nth_error in I as [j N]. rewrite nth_error_firstn in N.
    destruct (j <? n) eqn:L; [|discriminate]. apply Nat.ltb_lt in L. rewrite (H j w L N) in Q. discriminate.
Qed.

Lemma new_before_S ic oc olen i v : nth_error ic i = Some v ->
  new_before ic oc olen (S i) = new_before ic oc olen i + if absentb oc olen v then 1 else 0.
Proof.
  intro N. unfold new_before.
  assert (E : firstn (S i) ic = firstn i ic ++ [v]).
  { clear -N. revert i N. induction ic as [|x ic IH]; intros [|i] N; cbn in *; try discriminate; [injection N as ->; reflexivity|].
    rewrite <- (IH i N). reflexivity. }
  rewrite E, filter_app, app_length. cbn. destruct (absentb oc olen v); reflexivity.
Qed.

(** the target of one position *)
Definition tgt (ic oc : list V) (olen i : nat) (v : V) : nat :=
  let f := find_pos eqb oc olen v in if f =? olen then olen + new_before ic oc olen i else f.

Definition seen (ic oc : list V) (olen : nat) (ounlim : bool) (k : nat) (s : mstate) : Prop :=
  (m_bad s = true -> ounlim = false /\ exists i v, i < k /\ nth_error ic i = Some v /\ absent oc olen v) /\
  (m_bad s = false ->
     (forall i v, i < k -> nth_error ic i = Some v -> absent oc olen v -> ounlim = true) /\
     m_count s = new_before ic oc olen k /\
     (forall i j, In (i, j) (m_slices s) <-> exists v, i < k /\ nth_error ic i = Some v /\ j = tgt ic oc olen i v) /\
     (m_changes s = 0 <-> forall i v, i < k -> nth_error ic i = Some v -> tgt ic oc olen i v = i)).

Lemma map_one_seen ic oc olen ounlim k s :
  olen <= length oc -> k < length ic -> seen ic oc olen ounlim k s ->
  exists s', map_one eqb ic oc olen ounlim s k = Ok s' /\ seen ic oc olen ounlim (S k) s'.
Proof.
  intros Lo Lk [HB HG]. destruct (nth_error ic k) as [v|] eqn:N; [|apply nth_error_None in N; lia].
  unfold map_one. rewrite N. cbn [rd obind].
  destruct (find_pos_spec oc olen v Lo) as [[F A]|(F & W & A)].
  - rewrite F, Nat.eqb_refl. assert (Ab : absentb oc olen v = true) by (apply absentb_spec; exact A).
    destruct ounlim.
    + eexists. split; [reflexivity|]. split; cbn [m_bad m_count m_slices m_changes].
      * intro B. apply HB in B as [Q _]. discriminate.
      * intro B. destruct (HG B) as (H1 & H2 & H3 & H4).
        assert (T : tgt ic oc olen k v = olen + m_count s).
        { unfold tgt. rewrite F, Nat.eqb_refl, H2. reflexivity. }
        split; [intros; reflexivity|]. split; [rewrite (new_before_S _ _ _ _ _ N), Ab; lia|]. split.
        -- intros i j. rewrite in_app_iff, H3. split.
           ++ intros [(u & Hi & Nu & Ej)|[[= <- <-]|[]]].
              ** exists u. split; [lia|auto].
              ** exists v. split; [lia|]. split; [exact N|]. symmetry. exact T.
           ++ intros (u & Hi & Nu & ->). destruct (Nat.eq_dec i k) as [->|].
              ** rewrite N in Nu. injection Nu as <-. right. left. rewrite T. reflexivity.
              ** left. exists u. split; [lia|auto].
        -- destruct (k =? olen + m_count s) eqn:Q; cbn [negb].
           ++ apply Nat.eqb_eq in Q. rewrite H4. split.
              ** intros H i u Hi Nu. destruct (Nat.eq_dec i k) as [->|]; [rewrite N in Nu; injection Nu as <-; lia|].
                 apply H; [lia|exact Nu].
              ** intros H i u Hi Nu. apply H; [lia|exact Nu].
           ++ apply Nat.eqb_neq in Q. split; [discriminate|]. intro H. specialize (H k v ltac:(lia) N). lia.
    + eexists. split; [reflexivity|]. split; cbn [m_bad m_count m_slices m_changes]; [|discriminate].
      intros _. split; [reflexivity|]. exists k, v. split; [lia|auto].
  - replace (find_pos eqb oc olen v =? olen) with false by (symmetry; apply Nat.eqb_neq; lia).
    assert (Ab : absentb oc olen v = false).
    { destruct (absentb oc olen v) eqn:Q; [|reflexivity]. apply absentb_spec in Q. destruct W as (w & Nw & Ew).
      rewrite (Q _ _ F Nw) in Ew. discriminate. }
    assert (T : tgt ic oc olen k v = find_pos eqb oc olen v).
    { unfold tgt. replace (find_pos eqb oc olen v =? olen) with false by (symmetry; apply Nat.eqb_neq; lia). reflexivity. }
    eexists. split; [reflexivity|]. split; cbn [m_bad m_count m_slices m_changes].
    + intro B. apply HB in B as (U & i & u & Hi & R). split; [exact U|]. exists i, u. split; [lia|exact R].
    + intro B. destruct (HG B) as (H1 & H2 & H3 & H4). split; [|split; [|split]].
      * intros i u Hi Nu Au. destruct (Nat.eq_dec i k) as [->|]; [|apply (H1 i u); [lia|exact Nu|exact Au]].
        rewrite N in Nu. injection Nu as <-. apply absentb_spec in Au. congruence.
      * rewrite (new_before_S _ _ _ _ _ N), Ab. lia.
      * intros i j. rewrite in_app_iff, H3. split.
        -- intros [(u & Hi & Nu & Ej)|[[= <- <-]|[]]].
           ++ exists u. split; [lia|auto].
           ++ exists v. split; [lia|]. split; [exact N|]. symmetry. exact T.
        -- intros (u & Hi & Nu & ->). destruct (Nat.eq_dec i k) as [->|].
           ++ rewrite N in Nu. injection Nu as <-. right. left. rewrite T. reflexivity.
           ++ left. exists u. split; [lia|auto].
      * destruct (k =? find_pos eqb oc olen v) eqn:Q; cbn [negb].
        -- apply Nat.eqb_eq in Q. rewrite H4. split.
           ++ intros H i u Hi Nu. destruct (Nat.eq_dec i k) as [->|]; [rewrite N in Nu; injection Nu as <-; lia|].
              apply H; [lia|exact Nu].
           ++ intros H i u Hi Nu. apply H; [lia|exact Nu].
        -- apply Nat.eqb_neq in Q. split; [discriminate|]. intro H. specialize (H k v ltac:(lia) N). lia.
Qed.

Lemma map_all_seen ic oc olen ounlim n : olen <= length oc -> n <= length ic ->
  exists s, ofold (map_one eqb ic oc olen ounlim) (seq 0 n) (MS [] 0 0 false) = Ok s /\ seen ic oc olen ounlim n s.
Proof.
  intros Lo. 
  assert (G : forall m k s, k + m <= length ic -> seen ic oc olen ounlim k s ->
    exists s', ofold (map_one eqb ic oc olen ounlim) (seq k m) s = Ok s' /\ seen ic oc olen ounlim (k + m) s').
  { induction m as [|m IH]; intros k s L S; cbn [seq ofold].
    - exists s. rewrite Nat.add_0_r. auto.
    - destruct (map_one_seen ic oc olen ounlim k s Lo ltac:(lia) S) as (s' & E & S'). rewrite E. cbn [obind].
      replace (k + Datatypes.S m) with (Datatypes.S k + m) by lia. apply IH; [lia|exact S']. }
  intro L. apply (G n 0 (MS [] 0 0 false)); [lia|].
  split; cbn; [discriminate|]. intros _. split; [intros; lia|]. split; [reflexivity|]. split.
  - intros i j. split; [intros []|]. intros (v & H & _). lia.
  - split; [intros; lia|auto].
Qed.

Lemma goes_tgt d o ic oc i j v : wf_dim o ->
  d_coord d = Some ic -> d_coord o = Some oc -> nth_error ic i = Some v ->
  (absent oc (d_len o) v -> d_unlim o = true) ->
  (goes d o i j <-> j = tgt ic oc (d_len o) i v).
Proof.
  intros W Ed Eo N U. unfold wf_dim in W. rewrite Eo in W. unfold goes. rewrite Ed, Eo. unfold tgt.
  destruct (find_pos_spec oc (d_len o) v ltac:(lia)) as [[F A]|(F & Wi & A)].
  - rewrite F, Nat.eqb_refl. split.
    + intros (u & Nu & [(Hj & (w & Nw & Ew) & _)|(_ & _ & ->)]); rewrite N in Nu; injection Nu as <-; [|reflexivity].
      rewrite (A j w Hj Nw) in Ew. discriminate.
    + intros ->. exists v. split; [exact N|]. right. auto.
  - replace (find_pos eqb oc (d_len o) v =? d_len o) with false by (symmetry; apply Nat.eqb_neq; lia). split.
    + intros (u & Nu & [(Hj & (w & Nw & Ew) & Aj)|(Ab & _ & _)]); rewrite N in Nu; injection Nu as <-.
      * destruct Wi as (w' & Nw' & Ew').
        destruct (lt_eq_lt_dec j (find_pos eqb oc (d_len o) v)) as [[L| ->]|L]; [|reflexivity|].
        -- rewrite (A j w L Nw) in Ew. discriminate.
        -- rewrite (Aj _ _ L Nw') in Ew'. discriminate.
      * destruct Wi as (w' & Nw' & Ew'). rewrite (Ab _ _ F Nw') in Ew'. discriminate.
    + intros ->. exists v. split; [exact N|]. left. auto.
Qed.

(** what is recorded for one dimension *)
Lemma map_dim_spec odims d o : wf_dim d -> wf_dim o -> find_dim (d_name d) odims = Some o ->
  exists sl bad, map_dim eqb odims d = Ok (sl, bad) /\ (bad = false <-> usable d o) /\
    (bad = false ->
     match sl with
     | Some l => forall i j, In (i, j) l <-> i < d_len d /\ goes d o i j
     | None => (d_len d = d_len o \/ d_len d = 0) /\ forall i j, i < d_len d -> (goes d o i j <-> i = j)
     end).
Proof.
  intros Wd Wo F. unfold map_dim. rewrite F. unfold wf_dim in Wd.
  destruct (d_coord d) as [ic|] eqn:Ed; [destruct (d_coord o) as [oc|] eqn:Eo|].
  - pose proof Wo as Wo'. unfold wf_dim in Wo'. rewrite Eo in Wo'.
    replace (length oc <? d_len o) with false by (symmetry; apply Nat.ltb_ge; lia).
    destruct (map_all_seen ic oc (d_len o) (d_unlim o) (d_len d)) as (s & E & HB & HG); [lia|lia|].
    rewrite E. cbn [obind]. destruct (m_bad s) eqn:B.
    + destruct (HB eq_refl) as (U & i & v & Hi & N & A). eexists. exists true. split; [reflexivity|].
      split; [|discriminate]. split; [discriminate|]. unfold usable. rewrite Ed, Eo. intro H.
      destruct (H i Hi) as [j G]. exfalso. unfold goes in G. rewrite Ed, Eo in G.
      destruct G as (u & Nu & [(Hj & (w & Nw & Ew) & _)|(_ & U' & _)]); [|congruence].
      rewrite N in Nu. injection Nu as <-. rewrite (A j w Hj Nw) in Ew. discriminate.
    + destruct (HG eq_refl) as (H1 & _ & H3 & H4).
      assert (GT : forall i j v, i < d_len d -> nth_error ic i = Some v -> (goes d o i j <-> j = tgt ic oc (d_len o) i v)).
      { intros i j v Hi N. apply goes_tgt; auto. intro A. exact (H1 i v Hi N A). }
      assert (NV : forall i, i < d_len d -> exists v, nth_error ic i = Some v).
      { intros i Hi. destruct (nth_error ic i) as [v|] eqn:Q; [eauto|]. apply nth_error_None in Q. lia. }
      eexists. exists false. split; [cbn; reflexivity|]. split.
      { split; [|reflexivity]. intros _. unfold usable. rewrite Ed, Eo. intros i Hi.
        destruct (NV i Hi) as [v N]. exists (tgt ic oc (d_len o) i v). apply (GT i _ v Hi N). reflexivity. }
      intros _. destruct ((0 <? m_changes s) || negb (d_len d =? d_len o)) eqn:C.
      * intros i j. rewrite H3. split.
        -- intros (v & Hi & N & Ej). split; [exact Hi|]. apply (GT i j v Hi N). exact Ej.
        -- intros (Hi & G). destruct (NV i Hi) as [v N]. exists v. split; [exact Hi|]. split; [exact N|].
           apply (GT i j v Hi N). exact G.
      * apply orb_false_iff in C as [C1 C2]. apply Nat.ltb_ge in C1. apply negb_false_iff, Nat.eqb_eq in C2.
        split; [left; exact C2|]. intros i j Hi. destruct (NV i Hi) as [v N]. rewrite (GT i j v Hi N).
        rewrite (proj1 H4 ltac:(lia) i v Hi N). split; auto.
  - assert (US : usable d o <-> d_unlim o = true \/ d_len d = d_len o) by (unfold usable; rewrite Ed, Eo; reflexivity).
    assert (GO : forall i j, goes d o i j <-> (d_unlim o = true /\ j = d_len o + i) \/ (d_unlim o = false /\ d_len d = d_len o /\ j = i))
      by (intros; unfold goes; rewrite Ed, Eo; reflexivity).
    clear F. destruct (d_unlim o) eqn:U.
    + cbn [obind]. destruct (d_len d =? 0) eqn:Z.
      * exists None, false. cbn [andb]. split; [reflexivity|]. split; [rewrite US; tauto|]. intros _.
        apply Nat.eqb_eq in Z. split; [auto|]. intros; lia.
      * exists (Some (map (fun i => (i, d_len o + i)) (seq 0 (d_len d)))), false. split; [reflexivity|]. split; [rewrite US; tauto|]. intros _ i j.
        rewrite in_map_iff, GO. split.
        -- intros (x & [= -> <-] & Ix). apply in_seq in Ix. split; [lia|auto].
        -- intros (Hi & [[_ ->]|[[=] _]]). exists i. split; [reflexivity|]. apply in_seq. lia.
    + destruct (d_len d =? d_len o) eqn:L; cbn [obind].
      * apply Nat.eqb_eq in L. exists None, false. split; [reflexivity|]. split; [rewrite US; tauto|]. intros _. split; [auto|].
        intros i j Hi. rewrite GO. split; [intros [[[=] _]|(_ & _ & ->)]; reflexivity|intros ->; right; auto].
      * apply Nat.eqb_neq in L. eexists. exists true. split; [reflexivity|]. split; [|discriminate].
        split; [discriminate|]. rewrite US. intros [[=]|Q]; contradiction.
  - assert (US : usable d o <-> d_unlim o = true \/ d_len d = d_len o) by (unfold usable; rewrite Ed; reflexivity).
    assert (GO : forall i j, goes d o i j <-> (d_unlim o = true /\ j = d_len o + i) \/ (d_unlim o = false /\ d_len d = d_len o /\ j = i))
      by (intros; unfold goes; rewrite Ed; reflexivity).
    clear F. destruct (d_unlim o) eqn:U.
    + cbn [obind]. destruct (d_len d =? 0) eqn:Z.
      * exists None, false. cbn [andb]. split; [reflexivity|]. split; [rewrite US; tauto|]. intros _.
        apply Nat.eqb_eq in Z. split; [auto|]. intros; lia.
      * exists (Some (map (fun i => (i, d_len o + i)) (seq 0 (d_len d)))), false. split; [reflexivity|]. split; [rewrite US; tauto|]. intros _ i j.
        rewrite in_map_iff, GO. split.
        -- intros (x & [= -> <-] & Ix). apply in_seq in Ix. split; [lia|auto].
        -- intros (Hi & [[_ ->]|[[=] _]]). exists i. split; [reflexivity|]. apply in_seq. lia.
    + destruct (d_len d =? d_len o) eqn:L; cbn [obind].
      * apply Nat.eqb_eq in L. exists None, false. split; [reflexivity|]. split; [rewrite US; tauto|]. intros _. split; [auto|].
        intros i j Hi. rewrite GO. split; [intros [[[=] _]|(_ & _ & ->)]; reflexivity|intros ->; right; auto].
      * apply Nat.eqb_neq in L. eexists. exists true. split; [reflexivity|]. split; [|discriminate].
        split; [discriminate|]. rewrite US. intros [[=]|Q]; contradiction.
Qed.

Lemma find_dim_some n ds (d : dim) : find_dim n ds = Some d -> In d ds /\ d_name d = n.
Proof.
  unfold find_dim. intro F. apply find_some in F as [I E]. apply String.eqb_eq in E. auto.
Qed.

Lemma map_dims_ok idims odims :
  (forall d, In d idims -> wf_dim d) -> (forall o, In o odims -> wf_dim o) ->
  exists ms, map_dims eqb idims odims = Ok ms /\
    forall n, match find_dim n idims with
              | None => lookup n ms = None
              | Some d => exists r, lookup n ms = Some r /\ map_dim eqb odims d = Ok r
              end.
Proof.
  intros Wi Wo. unfold map_dims. induction idims as [|d idims IH].
  - exists []. split; [reflexivity|]. intro n. reflexivity.
  - destruct IH as (ms & E & H); [intros; apply Wi; right; assumption|].
    assert (R : exists r, map_dim eqb odims d = Ok r).
    { destruct (find_dim (d_name d) odims) as [o|] eqn:F.
      - destruct (map_dim_spec odims d o) as (sl & bad & M & _); eauto.
        + apply Wi. left; reflexivity.
        + apply find_dim_some in F as [I _]. apply Wo. exact I.
      - unfold map_dim. rewrite F. eauto. }
    destruct R as [r R]. exists ((d_name d, r) :: ms). cbn [omapM]. rewrite R. cbn [obind]. rewrite E. split; [reflexivity|].
    intro n. specialize (H n). unfold find_dim, lookup in *. cbn [find fst].
    destruct (String.eqb (d_name d) n); [|exact H]. exists r. cbn. auto.
Qed.

Lemma shape_eq_refl l : shape_eq l l = Ok true.
Proof. induction l; cbn; [reflexivity|]. rewrite String.eqb_refl. exact IHl. Qed.

Lemma mem_in n l : mem n l = true <-> In n l.
Proof.
  unfold mem. rewrite existsb_exists. split.
  - intros (x & I & E). apply String.eqb_eq in E as ->. exact I.
  - intro I. exists n. split; [exact I|apply String.eqb_refl].
Qed.

Lemma without_in n ns l : In n (without ns l) <-> In n l /\ ~ In n ns.
Proof.
  unfold without. rewrite filter_In, negb_true_iff. rewrite <- (mem_in n ns). destruct (mem n ns); intuition congruence.
Qed.

Lemma new_sb_ok (ds : list dim) u shape :
  (forall n, In n shape -> exists d, find_dim n ds = Some d) ->
  exists sb, new_sb ds u shape = Ok sb /\ map e_name sb = shape /\
    forall e, In e sb -> exists d, find_dim (e_name e) ds = Some d /\ e = Ent (e_name e) 0 (d_len d) (d_len d) (u && d_unlim d).
Proof.
  intro H. unfold new_sb. induction shape as [|n shape IH].
  - exists []. split; [reflexivity|]. split; [reflexivity|intros ? []].
  - destruct IH as (sb & E & En & Ee); [intros; apply H; right; assumption|].
    destruct (H n (or_introl eq_refl)) as [d F]. cbn [omapM]. rewrite F. cbn [obind]. rewrite E.
    eexists. split; [reflexivity|]. split; [cbn; rewrite En; reflexivity|].
    intros e [<-|I]; [|apply Ee; exact I]. exists d. cbn. auto.
Qed.

(** assignments made by the translations *)
Definition fixed (shape : list string) (trs : list (string * list nat)) : list (string * nat) :=
  flat_map (fun t : string * list nat => if mem (fst t) shape then map (fun k => (fst t, k)) (snd t) else []) trs.

Lemma fixed_keys shape trs n : In n (map fst (fixed shape trs)) -> In n shape /\ In n (map fst trs).
Proof.
  unfold fixed. intro I. apply in_map_iff in I as ([m k] & <- & I). apply in_flat_map in I as ([t ks] & It & I). cbn [fst snd] in *.
  destruct (mem t shape) eqn:M; [|destruct I]. apply in_map_iff in I as (x & [= <- <-] & _).
  apply mem_in in M. split; [exact M|]. apply (in_map fst) in It. exact It.
Qed.

Lemma fixed_lookup shape trs n ks : NoDup (map fst trs) -> In (n, ks) trs -> In n shape ->
  lookup n (fixed shape trs) = match ks with [] => None | k :: _ => Some k end.
Proof.
  unfold fixed. induction trs as [|[m ls] trs IH]; intros ND I S; [destruct I|].
  inversion ND as [|? ? NI ND']; subst. cbn [flat_map fst snd]. rewrite lookup_app.
  destruct I as [[= -> ->]|I].
  - rewrite (proj2 (mem_in n shape) S). destruct ks as [|k ks]; cbn [map].
    + change (lookup n (@nil (string * nat))) with (@None nat). apply lookup_none. intro Q.
      apply fixed_keys in Q as [_ Q]. exact (NI Q).
    + unfold lookup; cbn. rewrite String.eqb_refl. reflexivity.
  - replace (lookup n (if mem m shape then map (fun k => (m, k)) ls else [])) with (@None nat); [apply IH; assumption|].
    symmetry. destruct (mem m shape); [|reflexivity]. apply lookup_none. intro Q. apply in_map_iff in Q as (x & E & Q).
    apply in_map_iff in Q as (k & <- & _). cbn in E. subst m. apply NI. apply (in_map fst) in I. exact I.
Qed.

Section Fill.
Variables (idims odims : list dim) (trs : list translation) (ishape oshape : list string).
Hypothesis wfi : forall d, In d idims -> wf_dim d.
Hypothesis wfo : forall o, In o odims -> wf_dim o.
Hypothesis ndi : NoDup ishape.
Hypothesis ndo : NoDup oshape.
Hypothesis ndti : NoDup (map t_in trs).
Hypothesis ndto : NoDup (map t_out trs).
Hypothesis ini : forall n, In n ishape -> exists d, find_dim n idims = Some d.
Hypothesis ino : forall n, In n oshape -> exists d, find_dim n odims = Some d.
Hypothesis same : without (map t_in trs) ishape = without (map t_out trs) oshape.
Hypothesis tri_ok : forall t, In t trs -> In (t_in t) ishape ->
  exists k d, t_ins t = [k] /\ find_dim (t_in t) idims = Some d /\ k < d_len d.
Hypothesis tro_ok : forall t, In t trs -> In (t_out t) oshape ->
  exists k d, t_outs t = [k] /\ find_dim (t_out t) odims = Some d /\ (d_unlim d = true \/ k < d_len d).
Hypothesis all_usable : forall n d o, In n ishape -> find_dim n idims = Some d -> find_dim n odims = Some o -> usable d o.

(** the copies the configuration asks for: [vi] and [vo] give the input and output index of each
    dimension by name *)
Definition wanted (p q : list nat) : Prop :=
  exists vi vo : string -> nat,
    p = map vi ishape /\ q = map vo oshape /\
    (forall n d o, In n ishape -> ~ In n (map t_in trs) -> find_dim n idims = Some d -> find_dim n odims = Some o ->
       vi n < d_len d /\ goes d o (vi n) (vo n)) /\
    (forall t, In t trs -> In (t_in t) ishape -> t_ins t = [vi (t_in t)]) /\
    (forall t, In t trs -> In (t_out t) oshape -> t_outs t = [vo (t_out t)]).

Let core_names := without (map t_in trs) ishape.
Let ti := map (fun t => (t_in t, t_ins t)) trs.
Let t_o := map (fun t => (t_out t, t_outs t)) trs.
Let isTi n := mem n (map t_in trs).
Let isTo n := mem n (map t_out trs).

Lemma ti_names : map fst ti = map t_in trs.
Proof. unfold ti. rewrite map_map. reflexivity. Qed.
Lemma to_names : map fst t_o = map t_out trs.
Proof. unfold t_o. rewrite map_map. reflexivity. Qed.

Lemma goes_bound n d o i j : In n ishape -> find_dim n idims = Some d -> find_dim n odims = Some o ->
  i < d_len d -> goes d o i j -> d_unlim o = true \/ j < d_len o.
Proof.
  intros In Fd Fo Hi G. unfold goes in G.
  destruct (d_coord d), (d_coord o); try (destruct G as [[U _]|(_ & L & ->)]; [auto|right; lia]).
  destruct G as (v & _ & [(Hj & _)|(_ & U & _)]); auto.
Qed.

Lemma assign_in a sb e : In e (assign a sb) ->
  exists e0, In e0 sb /\ e_name e = e_name e0 /\ e_max e = e_max e0 /\ e_unlim e = e_unlim e0 /\
    match lookup (e_name e0) a with
    | Some k => e_start e = k /\ e_size e = 1
    | None => e = e0
    end.
Proof.
  unfold assign. intro I. apply in_map_iff in I as (e0 & E & I). exists e0. split; [exact I|].
  destruct (lookup (e_name e0) a); subst e; cbn; auto.
Qed.

Theorem fill_var_copies ms : map_dims eqb idims odims = Ok ms ->
  exists cs, fill_var idims odims trs ms ishape (Some oshape) = Ok (Some cs) /\
    forall p q, In (p, q) cs <-> wanted p q.
Proof.
  intro Hms.
  destruct (map_dims_ok idims odims wfi wfo) as (ms' & E' & Lms). rewrite Hms in E'. injection E' as <-.
  (* what the slices of a dimension of the shape mean *)
  assert (Mean : forall n d o, In n ishape -> find_dim n idims = Some d -> find_dim n odims = Some o ->
    exists sl, lookup n ms = Some (sl, false) /\
      match sl with
      | Some l => forall i j, In (i, j) l <-> i < d_len d /\ goes d o i j
      | None => (d_len d = d_len o \/ d_len d = 0) /\ forall i j, i < d_len d -> (goes d o i j <-> i = j)
      end).
  { intros n d o I Fd Fo. pose proof (Lms n) as L. rewrite Fd in L. destruct L as (r & L & M).
    destruct (find_dim_some _ _ _ Fd) as [Id Nd]. destruct (find_dim_some _ _ _ Fo) as [Io No].
    destruct (map_dim_spec odims d o (wfi d Id) (wfo o Io)) as (sl & bad & M' & B & S); [rewrite Nd; exact Fo|].
    rewrite M in M'. injection M' as ->. assert (bad = false) as -> by (apply B; exact (all_usable n d o I Fd Fo)).
    exists sl. split; [exact L|exact (S eq_refl)]. }
  assert (NotBad : existsb (fun n => match lookup n ms with Some (_, true) => true | _ => false end) ishape = false).
  { destruct (existsb _ ishape) eqn:X; [|reflexivity]. exfalso. apply existsb_exists in X as (n & I & X).
    destruct (ini n I) as [d Fd]. destruct (find_dim n odims) as [o|] eqn:Fo.
    - destruct (Mean n d o I Fd Fo) as (sl & L & _). rewrite L in X. discriminate.
    - pose proof (Lms n) as L. rewrite Fd in L. destruct L as (r & L & M). destruct (find_dim_some _ _ _ Fd) as [_ Nd].
      unfold map_dim in M. rewrite Nd, Fo in M. injection M as <-. rewrite L in X. discriminate. }
  unfold fill_var. rewrite NotBad. rewrite <- same, shape_eq_refl. cbn [obind negb].
  destruct (new_sb_ok idims false ishape ini) as (isb & Ei & Ni & Si). rewrite Ei. cbn [obind].
  destruct (new_sb_ok odims true oshape ino) as (osb & Eo & No & So). rewrite Eo. cbn [obind].
  fold ti t_o.
  assert (Ai : forall n k d, find_dim n idims = Some d -> k < d_len d -> allowed isb n k).
  { intros n k d Fd Hk e Ie En. destruct (Si e Ie) as (d' & Fd' & Ee). rewrite En in Fd'. rewrite Fd in Fd'. injection Fd' as <-.
    right. rewrite Ee. exact Hk. }
  assert (Ao : forall n k d, find_dim n odims = Some d -> d_unlim d = true \/ k < d_len d -> allowed osb n k).
  { intros n k d Fd Hk e Ie En. destruct (So e Ie) as (d' & Fd' & Ee). rewrite En in Fd'. rewrite Fd in Fd'. injection Fd' as <-.
    rewrite Ee. cbn. exact Hk. }
  assert (T1 : translate ishape ti isb = Ok (assign (fixed ishape ti) isb)).
  { pose proof (translate_spec ishape ti isb []) as T. cbn [app] in T.
    replace (assign [] isb) with isb in T; [apply T|].
    - rewrite ti_names. exact ndti.
    - exact Ni.
    - intros n [].
    - intros n ks I S. unfold ti in I. apply in_map_iff in I as (t & [= <- <-] & It).
      destruct (tri_ok t It S) as (k & d & -> & Fd & Hk). exists k. split; [reflexivity|]. eapply Ai; eauto.
    - unfold assign. symmetry. rewrite <- (map_id isb) at 2. apply map_ext. intro e. reflexivity. }
  assert (T2 : translate oshape t_o osb = Ok (assign (fixed oshape t_o) osb)).
  { pose proof (translate_spec oshape t_o osb []) as T. cbn [app] in T.
    replace (assign [] osb) with osb in T; [apply T|].
    - rewrite to_names. exact ndto.
    - exact No.
    - intros n [].
    - intros n ks I S. unfold t_o in I. apply in_map_iff in I as (t & [= <- <-] & It).
      destruct (tro_ok t It S) as (k & d & -> & Fd & Hk). exists k. split; [reflexivity|]. eapply Ao; eauto.
    - unfold assign. symmetry. rewrite <- (map_id osb) at 2. apply map_ext. intro e. reflexivity. }
  rewrite T1. cbn [obind]. rewrite T2. cbn [obind].
  fold core_names.
  assert (NDc : NoDup core_names) by (apply NoDup_filter; exact ndi).
  assert (Ci : forall n, In n core_names -> In n ishape /\ ~ In n (map t_in trs)) by (intro n; apply without_in).
  assert (Co : forall n, In n core_names -> In n oshape /\ ~ In n (map t_out trs)).
  { intros n I. unfold core_names in I. rewrite same in I. apply without_in in I. exact I. }
  assert (Cd : forall n, In n core_names -> exists d o, find_dim n idims = Some d /\ find_dim n odims = Some o).
  { intros n I. destruct (ini n (proj1 (Ci n I))) as [d Fd]. destruct (ino n (proj1 (Co n I))) as [o Fo]. eauto. }
  pose proof (expand_spec ms (fixed ishape ti) (fixed oshape t_o) isb osb core_names [[]] NDc) as X.
  cbn [map ins outs] in X. rewrite !app_nil_r in X. rewrite X; clear X.
  2: { intros n I. rewrite Ni, No. split; [apply Ci; exact I|apply Co; exact I]. }
  2: { intros n I. split; intro Q; apply fixed_keys in Q as [_ Q].
       - rewrite ti_names in Q. exact (proj2 (Ci n I) Q).
       - rewrite to_names in Q. exact (proj2 (Co n I) Q). }
  2: { intros a n [<-|[]] _ []. }
  2: { intros n sl b i o' I L Iio. destruct (Cd n I) as (d & o & Fd & Fo).
       destruct (Mean n d o (proj1 (Ci n I)) Fd Fo) as (sl' & L' & M). rewrite L in L'. injection L' as <- ->.
       destruct (proj1 (M i o') Iio) as [Hi G]. split; [eapply Ai; eauto|]. eapply Ao; [exact Fo|].
       eapply goes_bound; eauto. apply Ci. exact I. }
  cbn [obind].
  set (ch := choices ms core_names [[]]).
  assert (Ch : forall a, In a ch <-> map fst a = filter (sliced ms) core_names /\
            forall n io, In (n, io) a -> exists sl bd, lookup n ms = Some (Some sl, bd) /\ In io sl).
  { intro a. unfold ch. rewrite choices_spec. split.
    - intros (a0 & b & [<-|[]] & -> & H). exact H.
    - intro H. exists [], a. split; [left; reflexivity|]. split; [reflexivity|exact H]. }
  (* what each choice copies *)
  assert (One : forall a, In a ch -> exists cs,
     copy_slice (assign (fixed ishape ti ++ ins a) isb, assign (fixed oshape t_o ++ outs a) osb) = Ok cs /\
     forall p q, In (p, q) cs <->
       exists f : string -> nat,
         (forall n d, In n core_names -> find_dim n idims = Some d ->
            f n < match lookup n a with Some _ => 1 | None => d_len d end) /\
         p = map (fun n => match lookup n (fixed ishape ti ++ ins a) with Some k => k | None => 0 end
                           + if isTi n then 0 else f n) ishape /\
         q = map (fun n => match lookup n (fixed oshape t_o ++ outs a) with Some k => k | None => 0 end
                           + if isTo n then 0 else f n) oshape).
  { intros a Ia. apply Ch in Ia as [Ka Va].
    assert (NDa : NoDup (map fst a)) by (rewrite Ka; apply NoDup_filter; exact NDc).
    assert (Li : forall n, In n core_names -> lookup n (fixed ishape ti ++ ins a) = option_map fst (lookup n a)).
    { intros n I. rewrite lookup_app, lookup_none.
      - unfold ins, lookup. clear. induction a as [|[m x] a IH]; [reflexivity|]. cbn. destruct (String.eqb m n); [reflexivity|exact IH].
      - intro Q. apply fixed_keys in Q as [_ Q]. rewrite ti_names in Q. exact (proj2 (Ci n I) Q). }
    assert (Lo : forall n, In n core_names -> lookup n (fixed oshape t_o ++ outs a) = option_map snd (lookup n a)).
    { intros n I. rewrite lookup_app, lookup_none.
      - unfold outs, lookup. clear. induction a as [|[m x] a IH]; [reflexivity|]. cbn. destruct (String.eqb m n); [reflexivity|exact IH].
      - intro Q. apply fixed_keys in Q as [_ Q]. rewrite to_names in Q. exact (proj2 (Co n I) Q). }
    assert (La : forall n, lookup n a = None -> In n core_names -> sliced ms n = false).
    { intros n L I. destruct (sliced ms n) eqn:S; [|reflexivity]. exfalso.
      assert (Q : In n (map fst a)) by (rewrite Ka; apply filter_In; auto).
      apply in_map_iff in Q as ([m x] & Em & Q). cbn in Em. subst m. apply (lookup_in n a x NDa) in Q. congruence. }
    assert (NA : map e_name (core isTi (assign (fixed ishape ti ++ ins a) isb)) = core_names).
    { rewrite core_map, assign_names, Ni. reflexivity. }
    assert (NB : map e_name (core isTo (assign (fixed oshape t_o ++ outs a) osb)) = core_names).
    { rewrite core_map, assign_names, No. unfold core_names. rewrite same. reflexivity. }
    (* sizes of the entries by name *)
    assert (ZA : forall e, In e (core isTi (assign (fixed ishape ti ++ ins a) isb)) ->
       exists d, find_dim (e_name e) idims = Some d /\ e_size e = match lookup (e_name e) a with Some _ => 1 | None => d_len d end).
    { intros e Ie. assert (Ic : In (e_name e) core_names) by (rewrite <- NA; apply in_map; exact Ie).
      apply filter_In in Ie as [Ie _]. apply assign_in in Ie as (e0 & I0 & N0 & _ & _ & H).
      destruct (Si e0 I0) as (d & Fd & Ee). rewrite N0 in *. exists d. split; [exact Fd|].
      rewrite (Li _ Ic) in H. destruct (lookup (e_name e0) a); cbn in H; [apply H|]. rewrite H, Ee. reflexivity. }
    assert (ZB : forall e, In e (core isTo (assign (fixed oshape t_o ++ outs a) osb)) ->
       exists d, find_dim (e_name e) odims = Some d /\ e_size e = match lookup (e_name e) a with Some _ => 1 | None => d_len d end).
    { intros e Ie. assert (Ic : In (e_name e) core_names) by (rewrite <- NB; apply in_map; exact Ie).
      apply filter_In in Ie as [Ie _]. apply assign_in in Ie as (e0 & I0 & N0 & _ & _ & H).
      destruct (So e0 I0) as (d & Fd & Ee). rewrite N0 in *. exists d. split; [exact Fd|].
      rewrite (Lo _ Ic) in H. destruct (lookup (e_name e0) a); cbn in H; [apply H|]. rewrite H, Ee. reflexivity. }
    (* starts by name *)
    assert (PA : forall f, map (fun e => e_start e + (if isTi (e_name e) then 0 else f (e_name e))) (assign (fixed ishape ti ++ ins a) isb)
        = map (fun n => match lookup n (fixed ishape ti ++ ins a) with Some k => k | None => 0 end + if isTi n then 0 else f n) ishape).
    { intro f. generalize (fixed ishape ti ++ ins a) as A. intro A. rewrite <- Ni. unfold assign. rewrite !map_map. apply map_ext_in. intros e Ie.
      destruct (Si e Ie) as (d & _ & Ee). destruct (lookup (e_name e) A); cbn [e_start e_name]; [reflexivity|].
      rewrite Ee at 1. reflexivity. }
    assert (PB : forall f, map (fun e => e_start e + (if isTo (e_name e) then 0 else f (e_name e))) (assign (fixed oshape t_o ++ outs a) osb)
        = map (fun n => match lookup n (fixed oshape t_o ++ outs a) with Some k => k | None => 0 end + if isTo n then 0 else f n) oshape).
    { intro f. generalize (fixed oshape t_o ++ outs a) as A. intro A. rewrite <- No. unfold assign. rewrite !map_map. apply map_ext_in. intros e Ie.
      destruct (So e Ie) as (d & _ & Ee). destruct (lookup (e_name e) A); cbn [e_start e_name]; [reflexivity|].
      rewrite Ee at 1. reflexivity. }
    destruct (copy_slice_spec isTi isTo (assign (fixed ishape ti ++ ins a) isb) (assign (fixed oshape t_o ++ outs a) osb)) as (cs & Ecs & Hcs).
    - intros e Ie T. apply assign_in in Ie as (e0 & I0 & N0 & _ & _ & H). unfold isTi in T. rewrite N0 in T. apply mem_in in T.
      apply in_map_iff in T as (t & Et & It).
      assert (Is : In (t_in t) ishape) by (rewrite Et, <- Ni; apply in_map; exact I0).
      destruct (tri_ok t It Is) as (k & _ & Ek & _).
      rewrite lookup_app in H. rewrite <- Et in H. rewrite (fixed_lookup ishape ti (t_in t) (t_ins t)) in H.
      + rewrite Ek in H. apply H.
      + rewrite ti_names. exact ndti.
      + unfold ti. apply in_map_iff. exists t. auto.
      + exact Is.
    - intros e Ie T. apply assign_in in Ie as (e0 & I0 & N0 & _ & _ & H). unfold isTo in T. rewrite N0 in T. apply mem_in in T.
      apply in_map_iff in T as (t & Et & It).
      assert (Is : In (t_out t) oshape) by (rewrite Et, <- No; apply in_map; exact I0).
      destruct (tro_ok t It Is) as (k & _ & Ek & _).
      rewrite lookup_app in H. rewrite <- Et in H. rewrite (fixed_lookup oshape t_o (t_out t) (t_outs t)) in H.
      + rewrite Ek in H. apply H.
      + rewrite to_names. exact ndto.
      + unfold t_o. apply in_map_iff. exists t. auto.
      + exact Is.
    - rewrite NA, NB. reflexivity.
    - (* sizes *)
      assert (Dec : (exists e, In e (core isTi (assign (fixed ishape ti ++ ins a) isb)) /\ e_size e = 0) \/
                    forall e, In e (core isTi (assign (fixed ishape ti ++ ins a) isb)) -> e_size e <> 0).
      { clear. induction (core isTi (assign (fixed ishape ti ++ ins a) isb)) as [|e l [(x & I & Z)|H]]; [right; intros ? []|left; exists x; cbn; auto|].
        destruct (Nat.eq_dec (e_size e) 0); [left; exists e; cbn; auto|]. right. intros x [<-|I]; auto. }
      destruct Dec as [D|D]; [right; exact D|left].
      transitivity (map (fun n => match lookup n a with Some _ => 1 | None => match find_dim n idims with Some d => d_len d | None => 0 end end) core_names).
      + rewrite <- NA, map_map. apply map_ext_in. intros e Ie. destruct (ZA e Ie) as (d & Fd & ->). rewrite Fd. reflexivity.
      + transitivity (map (fun n => match lookup n a with Some _ => 1 | None => match find_dim n odims with Some d => d_len d | None => 0 end end) core_names).
        * apply map_ext_in. intros n In'. destruct (lookup n a) eqn:L; [reflexivity|].
          destruct (Cd n In') as (d & o & Fd & Fo). rewrite Fd, Fo.
          destruct (Mean n d o (proj1 (Ci n In')) Fd Fo) as (sl & Ls & M).
          pose proof (La n L In') as NS. unfold sliced in NS. rewrite Ls in NS. destruct sl; [discriminate|].
          destruct M as [[Q|Q] _]; [exact Q|]. exfalso.
          rewrite <- NA in In'. apply in_map_iff in In' as (e & Ee & Ie). apply (D e Ie).
          destruct (ZA e Ie) as (d' & Fd' & ->). rewrite Ee, Fd in Fd'. injection Fd' as <-. rewrite Ee, L. exact Q.
        * rewrite <- NB, map_map. apply map_ext_in. intros e Ie. destruct (ZB e Ie) as (d & Fd & ->). rewrite Fd. reflexivity.
    - rewrite NA. exact NDc.
    - exists cs. split; [exact Ecs|]. intros p q. rewrite Hcs. split; intros (f & Hf & -> & ->); exists f; (split; [|split; auto]).
      + intros n d In' Fd. rewrite <- NA in In'. apply in_map_iff in In' as (e & <- & Ie). specialize (Hf e Ie).
        destruct (ZA e Ie) as (d' & Fd' & Es). rewrite Fd in Fd'. injection Fd' as <-. rewrite Es in Hf. exact Hf.
      + intros e Ie. destruct (ZA e Ie) as (d & Fd & ->). apply (Hf (e_name e) d); [rewrite <- NA; apply in_map; exact Ie|exact Fd]. }
  (* all choices together *)
  destruct (omapM_rel copy_slice (fun pr cs => exists a, In a ch /\ pr = (assign (fixed ishape ti ++ ins a) isb, assign (fixed oshape t_o ++ outs a) osb) /\ copy_slice pr = Ok cs)
     (map (fun a => (assign (fixed ishape ti ++ ins a) isb, assign (fixed oshape t_o ++ outs a) osb)) ch)) as (css & Ecs & Fcs).
  { intros pr Ipr. apply in_map_iff in Ipr as (a & <- & Ia). destruct (One a Ia) as (cs & E & _). exists cs. split; [exact E|]. exists a. auto. }
  rewrite Ecs. cbn [obind]. exists (concat css). split; [reflexivity|].
  intros p q. 
  assert (All : In (p, q) (concat css) <-> exists a cs, In a ch /\
      copy_slice (assign (fixed ishape ti ++ ins a) isb, assign (fixed oshape t_o ++ outs a) osb) = Ok cs /\ In (p, q) cs).
  { rewrite in_concat. split.
    - intros (cs & Ics & Ipq). clear Ecs. revert Fcs Ics.
      generalize (map (fun a => (assign (fixed ishape ti ++ ins a) isb, assign (fixed oshape t_o ++ outs a) osb)) ch) as prs.
      intros prs F. induction F as [|pr c prs cs' (a & Ia & -> & E) F IH]; [intros []|].
      intros [->|I]; [exists a, cs; auto|apply IH; exact I].
    - intros (a & cs & Ia & E & Ipq). exists cs. split; [|exact Ipq].
      assert (Ipr : In (assign (fixed ishape ti ++ ins a) isb, assign (fixed oshape t_o ++ outs a) osb)
                (map (fun a => (assign (fixed ishape ti ++ ins a) isb, assign (fixed oshape t_o ++ outs a) osb)) ch))
        by (apply in_map_iff; exists a; auto).
      clear Ecs. revert Fcs Ipr. generalize (map (fun a => (assign (fixed ishape ti ++ ins a) isb, assign (fixed oshape t_o ++ outs a) osb)) ch) as prs.
      intros prs F. induction F as [|pr c prs cs' (a' & _ & _ & E') F IH]; [intros []|].
      intros [->|I]; [left; congruence|right; apply IH; exact I]. }
  rewrite All. clear All Ecs Fcs css. split.
  - intros (a & cs & Ia & E & Ipq). destruct (One a Ia) as (cs' & E' & H). rewrite E in E'. injection E' as <-.
    apply H in Ipq as (f & Hf & -> & ->). apply Ch in Ia as [Ka Va].
    assert (NDa : NoDup (map fst a)) by (rewrite Ka; apply NoDup_filter; exact NDc).
    eexists. eexists. split; [reflexivity|]. split; [reflexivity|]. split; [|split].
    + intros n d o Is NT Fd Fo. assert (Ic : In n core_names) by (apply without_in; auto).
      assert (isTi n = false) as -> by (unfold isTi; destruct (mem n (map t_in trs)) eqn:Q; [apply mem_in in Q; contradiction|reflexivity]).
      assert (isTo n = false) as ->.
      { unfold isTo; destruct (mem n (map t_out trs)) eqn:Q; [apply mem_in in Q; exfalso; exact (proj2 (Co n Ic) Q)|reflexivity]. }
      rewrite !lookup_app.
      rewrite (lookup_none n (fixed ishape ti)) by (intro Q; apply fixed_keys in Q as [_ Q]; rewrite ti_names in Q; exact (NT Q)).
      rewrite (lookup_none n (fixed oshape t_o)) by (intro Q; apply fixed_keys in Q as [_ Q]; rewrite to_names in Q; exact (proj2 (Co n Ic) Q)).
      assert (LI : lookup n (ins a) = option_map fst (lookup n a)).
      { unfold ins, lookup. clear. induction a as [|[m x] a IH]; [reflexivity|]. cbn. destruct (String.eqb m n); [reflexivity|exact IH]. }
      assert (LO : lookup n (outs a) = option_map snd (lookup n a)).
      { unfold outs, lookup. clear. induction a as [|[m x] a IH]; [reflexivity|]. cbn. destruct (String.eqb m n); [reflexivity|exact IH]. }
      rewrite LI, LO. specialize (Hf n d Ic Fd).
      destruct (Mean n d o Is Fd Fo) as (sl & Ls & M).
      destruct (lookup n a) as [[i j]|] eqn:L; cbn [option_map fst snd].
      * apply (lookup_in n a _ NDa) in L. destruct (Va n (i, j) L) as (sl' & bd & Ls' & Iio). rewrite Ls in Ls'. injection Ls' as -> <-.
        destruct (proj1 (M i j) Iio) as [Hi G]. replace (i + f n) with i by lia. replace (j + f n) with j by lia. auto.
      * destruct sl as [l|].
        -- exfalso. assert (Q : In n (map fst a)) by (rewrite Ka; apply filter_In; split; [exact Ic|]; unfold sliced; rewrite Ls; reflexivity).
           apply in_map_iff in Q as ([m x] & Em & Q). cbn in Em. subst m. apply (lookup_in n a x NDa) in Q. congruence.
        -- destruct M as [_ M]. cbn. split; [exact Hf|]. apply M; [exact Hf|reflexivity].
    + intros t It Is. destruct (tri_ok t It Is) as (k & d & Ek & _ & _).
      assert (isTi (t_in t) = true) as -> by (apply mem_in; apply in_map; exact It).
      rewrite lookup_app, (fixed_lookup ishape ti (t_in t) (t_ins t)).
      * rewrite Ek. rewrite Nat.add_0_r. reflexivity.
      * rewrite ti_names. exact ndti.
      * unfold ti. apply in_map_iff. exists t. auto.
      * exact Is.
    + intros t It Is. destruct (tro_ok t It Is) as (k & d & Ek & _ & _).
      assert (isTo (t_out t) = true) as -> by (apply mem_in; apply in_map; exact It).
      rewrite lookup_app, (fixed_lookup oshape t_o (t_out t) (t_outs t)).
      * rewrite Ek. rewrite Nat.add_0_r. reflexivity.
      * rewrite to_names. exact ndto.
      * unfold t_o. apply in_map_iff. exists t. auto.
      * exact Is.
  - intros (vi & vo & -> & -> & Hg & Hti & Hto).
    set (a := map (fun n => (n, (vi n, vo n))) (filter (sliced ms) core_names)).
    assert (Ka : map fst a = filter (sliced ms) core_names) by (unfold a; rewrite map_map; cbn; apply map_id).
    assert (NDa : NoDup (map fst a)) by (rewrite Ka; apply NoDup_filter; exact NDc).
    assert (Ia : In a ch).
    { apply Ch. split; [exact Ka|]. intros n io I. unfold a in I. apply in_map_iff in I as (m & [= -> <-] & I).
      apply filter_In in I as [Ic S]. unfold sliced in S. destruct (Cd n Ic) as (d & o & Fd & Fo).
      destruct (Ci n Ic) as [Is NT]. destruct (Mean n d o Is Fd Fo) as (sl & Ls & M). rewrite Ls in S. destruct sl as [l|]; [|discriminate].
      exists l, false. split; [exact Ls|]. apply M. exact (Hg n d o Is NT Fd Fo). }
    destruct (One a Ia) as (cs & E & H). exists a, cs. split; [exact Ia|]. split; [exact E|]. apply H.
    exists (fun n => if sliced ms n then 0 else vi n).
    assert (Lin : forall n, In n core_names -> lookup n a = if sliced ms n then Some (vi n, vo n) else None).
    { intros n Ic. destruct (sliced ms n) eqn:S.
      - apply (lookup_in n a _ NDa). unfold a. apply in_map_iff. exists n. split; [reflexivity|]. apply filter_In. auto.
      - apply lookup_none. rewrite Ka. intro Q. apply filter_In in Q as [_ Q]. congruence. }
    split; [|split].
    + intros n d Ic Fd. rewrite (Lin n Ic). destruct (sliced ms n) eqn:S; [lia|].
      destruct (Cd n Ic) as (d' & o & Fd' & Fo). rewrite Fd in Fd'. injection Fd' as <-. destruct (Ci n Ic) as [Is NT].
      exact (proj1 (Hg n d o Is NT Fd Fo)).
    + apply map_ext_in. intros n Is. unfold isTi. destruct (mem n (map t_in trs)) eqn:T.
      * apply mem_in in T. apply in_map_iff in T as (t & <- & It). rewrite lookup_app, (fixed_lookup ishape ti (t_in t) (t_ins t)).
        -- rewrite (Hti t It Is). rewrite Nat.add_0_r. reflexivity.
        -- rewrite ti_names. exact ndti.
        -- unfold ti. apply in_map_iff. exists t. auto.
        -- exact Is.
      * assert (NT : ~ In n (map t_in trs)) by (rewrite <- mem_in; congruence).
        assert (Ic : In n core_names) by (apply without_in; auto).
        rewrite lookup_app, (lookup_none n (fixed ishape ti)) by (intro Q; apply fixed_keys in Q as [_ Q]; rewrite ti_names in Q; exact (NT Q)).
        assert (LI : lookup n (ins a) = option_map fst (lookup n a)).
        { unfold ins, lookup. generalize a as a'. induction a' as [|[m x] a' IH]; [reflexivity|]. cbn. destruct (String.eqb m n); [reflexivity|exact IH]. }
        rewrite LI, (Lin n Ic). destruct (sliced ms n); cbn; lia.
    + apply map_ext_in. intros n Is. unfold isTo. destruct (mem n (map t_out trs)) eqn:T.
      * apply mem_in in T. apply in_map_iff in T as (t & <- & It). rewrite lookup_app, (fixed_lookup oshape t_o (t_out t) (t_outs t)).
        -- rewrite (Hto t It Is). rewrite Nat.add_0_r. reflexivity.
        -- rewrite to_names. exact ndto.
        -- unfold t_o. apply in_map_iff. exists t. auto.
        -- exact Is.
      * assert (NT : ~ In n (map t_out trs)) by (rewrite <- mem_in; congruence).
        assert (Ic : In n core_names) by (unfold core_names; rewrite same; apply without_in; auto).
        rewrite lookup_app, (lookup_none n (fixed oshape t_o)) by (intro Q; apply fixed_keys in Q as [_ Q]; rewrite to_names in Q; exact (NT Q)).
        assert (LO : lookup n (outs a) = option_map snd (lookup n a)).
        { unfold outs, lookup. generalize a as a'. induction a' as [|[m x] a' IH]; [reflexivity|]. cbn. destruct (String.eqb m n); [reflexivity|exact IH]. }
        rewrite LO, (Lin n Ic). destruct (sliced ms n) eqn:S; cbn; [lia|].
        destruct (Cd n Ic) as (d & o & Fd & Fo). destruct (Ci n Ic) as [Is' NTi]. destruct (Hg n d o Is' NTi Fd Fo) as [Hi G].
        destruct (Mean n d o Is' Fd Fo) as (sl & Ls & M). unfold sliced in S. rewrite Ls in S. destruct sl; [discriminate|].
        destruct M as [_ M]. symmetry. apply (M (vi n) (vo n) Hi). exact G.
Qed.
End Fill.

(** ** The theorems *)

(** the situation: dimensions with complete coordinates, shapes without repeated dimensions that
    agree apart from the translated dimensions, one slice given for each translated dimension *)
Definition fillable (idims odims : list dim) (trs : list translation) (ishape oshape : list string) : Prop :=
  (forall d, In d idims -> wf_dim d) /\ (forall o, In o odims -> wf_dim o) /\
  NoDup ishape /\ NoDup oshape /\ NoDup (map t_in trs) /\ NoDup (map t_out trs) /\
  (forall n, In n ishape -> exists d, find_dim n idims = Some d) /\
  (forall n, In n oshape -> exists d, find_dim n odims = Some d) /\
  without (map t_in trs) ishape = without (map t_out trs) oshape /\
  (forall t, In t trs -> In (t_in t) ishape ->
     exists k d, t_ins t = [k] /\ find_dim (t_in t) idims = Some d /\ k < d_len d) /\
  (forall t, In t trs -> In (t_out t) oshape ->
     exists k d, t_outs t = [k] /\ find_dim (t_out t) odims = Some d /\ (d_unlim d = true \/ k < d_len d)) /\
  (forall n d o, In n ishape -> find_dim n idims = Some d -> find_dim n odims = Some o -> usable d o).

(** every input cell is copied to the output cell with the same coordinates, and nothing else *)
Theorem C37_copies idims odims trs ishape oshape ms :
  fillable idims odims trs ishape oshape -> map_dims eqb idims odims = Ok ms ->
  exists cs, fill_var idims odims trs ms ishape (Some oshape) = Ok (Some cs) /\
    forall p q, In (p, q) cs <-> wanted idims odims trs ishape oshape p q.
Proof.
  intros (H1 & H2 & H3 & H4 & H5 & H6 & H7 & H8 & H9 & H10 & H11 & H12). apply fill_var_copies; assumption.
Qed.

(** what is in the output afterwards: cells that are no target keep their value, the others get the
    value of an input cell that is copied there; if there is only one such input cell, its value *)
Lemma apply_copies_spec {A} (inp : store A) cs : forall st q,
  ((forall p, ~ In (p, q) cs) -> apply_copies inp cs st q = st q) /\
  ((exists p, In (p, q) cs) -> exists p, In (p, q) cs /\ apply_copies inp cs st q = inp p).
Proof.
  unfold apply_copies. induction cs as [|[p0 q0] cs IH]; intros st q; cbn [fold_left].
  - split; [reflexivity|intros [p []]].
  - destruct (IH (write inp st (p0, q0)) q) as [H1 H2].
    assert (Dec : (exists p, In (p, q) cs) \/ forall p, ~ In (p, q) cs).
    { clear. induction cs as [|[p1 q1] cs [[p I]|H]]; [right; intros ? []|left; exists p; right; exact I|].
      destruct (pos_dec q1 q) as [->|N]; [left; exists p1; left; reflexivity|]. right. intros p [[= -> ->]|I]; [contradiction|exact (H p I)]. }
    split.
    + intro N. rewrite H1 by (intros p I; apply (N p); right; exact I). unfold write; cbn.
      destruct (pos_dec q q0) as [->|]; [exfalso; apply (N p0); left; reflexivity|reflexivity].
    + intros [p Ip]. destruct Dec as [D|D].
      * destruct (H2 D) as (p' & I & E). exists p'. split; [right; exact I|exact E].
      * rewrite (H1 D). unfold write; cbn. destruct Ip as [[= -> ->]|I]; [|exfalso; exact (D p I)].
        destruct (pos_dec q q); [|congruence]. exists p. split; [left; reflexivity|reflexivity].
Qed.

Theorem C37_values {A} (inp st : store A) idims odims trs ishape oshape ms :
  fillable idims odims trs ishape oshape -> map_dims eqb idims odims = Ok ms ->
  exists cs, fill_var idims odims trs ms ishape (Some oshape) = Ok (Some cs) /\
    forall q,
      ((forall p, ~ wanted idims odims trs ishape oshape p q) -> apply_copies inp cs st q = st q) /\
      (forall p, wanted idims odims trs ishape oshape p q ->
         exists p', wanted idims odims trs ishape oshape p' q /\ apply_copies inp cs st q = inp p').
Proof.
  intros F M. destruct (C37_copies _ _ _ _ _ _ F M) as (cs & E & H). exists cs. split; [exact E|].
  intro q. destruct (apply_copies_spec inp cs st q) as [H1 H2]. split.
  - intro N. apply H1. intros p I. apply (N p). apply H. exact I.
  - intros p W. destruct H2 as (p' & I & E'); [exists p; apply H; exact W|]. exists p'. split; [apply H; exact I|exact E'].
Qed.

(** if no coordinate occurs twice in the input, different cells go to different cells *)
Definition distinct (d : dim) : Prop :=
  forall ic i j v w, d_coord d = Some ic -> nth_error ic i = Some v -> nth_error ic j = Some w -> eqb v w = true -> i = j.

Lemma new_before_mono ic oc n i i' v : i < i' -> nth_error ic i = Some v -> absent oc n v ->
  new_before ic oc n i < new_before ic oc n i'.
Proof.
  intros L N A. assert (new_before ic oc n (S i) <= new_before ic oc n i').
  { unfold new_before. replace i' with (S i + (i' - S i)) by lia. generalize (i' - S i) as k. intro k.
    rewrite <- (firstn_skipn (S i) (firstn (S i + k) ic)). rewrite firstn_firstn, filter_app, app_length.
    replace (Nat.min (S i) (S i + k)) with (S i) by lia. lia. }
  rewrite (new_before_S _ _ _ _ _ N) in H. apply absentb_spec in A. rewrite A in H. lia.
Qed.

Lemma goes_inj (d o : dim) i i' j :
  (forall a b c, eqb a b = true -> eqb a c = true -> eqb b c = true) -> distinct d ->
  i < d_len d -> i' < d_len d -> goes d o i j -> goes d o i' j -> i = i'.
Proof.
  intros Tr Di Hi Hi' G G'. unfold goes in *.
  destruct (d_coord d) as [ic|] eqn:Ed; [destruct (d_coord o) as [oc|] eqn:Eo|].
  - destruct G as (v & N & [(Hj & (w & Nw & Ew) & _)|(Ab & _ & Ej)]);
    destruct G' as (v' & N' & [(Hj' & (w' & Nw' & Ew') & _)|(Ab' & _ & Ej')]); try lia.
    + rewrite Nw in Nw'. injection Nw' as <-. apply (Di ic i i' v v' Ed N N'). exact (Tr _ _ _ Ew Ew').
    + destruct (lt_eq_lt_dec i i') as [[L|L]|L]; [|exact L|].
      * pose proof (new_before_mono ic oc (d_len o) i i' v L N Ab). lia.
      * pose proof (new_before_mono ic oc (d_len o) i' i v' L N' Ab'). lia.
  - destruct G as [[U Ej]|(U & _ & Ej)], G' as [[U' Ej']|(U' & _ & Ej')]; lia || congruence.
  - destruct G as [[U Ej]|(U & _ & Ej)], G' as [[U' Ej']|(U' & _ & Ej')]; lia || congruence.
Qed.

Lemma map_inj_in {X Y} (f g : X -> Y) l : map f l = map g l -> forall x, In x l -> f x = g x.
Proof.
  induction l as [|a l IH]; cbn; intros E x; [intros []|]. injection E as E1 E2. intros [<-|I]; auto.
Qed.

Theorem C37_exact_values {A} (inp st : store A) idims odims trs ishape oshape ms :
  (forall a b c, eqb a b = true -> eqb a c = true -> eqb b c = true) ->
  fillable idims odims trs ishape oshape -> map_dims eqb idims odims = Ok ms ->
  (forall n d, In n ishape -> find_dim n idims = Some d -> distinct d) ->
  exists cs, fill_var idims odims trs ms ishape (Some oshape) = Ok (Some cs) /\
    forall p q, wanted idims odims trs ishape oshape p q -> apply_copies inp cs st q = inp p.
Proof.
  intros Tr F M Di. destruct (C37_values inp st _ _ _ _ _ _ F M) as (cs & E & H). exists cs. split; [exact E|].
  intros p q W. destruct (H q) as [_ H2]. destruct (H2 p W) as (p' & W' & ->). f_equal.
  destruct F as (_ & _ & _ & _ & _ & _ & Ini & Ino & Same & Tri & _).
  destruct W as (vi & vo & -> & Eq & Hg & Ht & _), W' as (vi' & vo' & -> & Eq' & Hg' & Ht' & _).
  rewrite Eq in Eq'. apply map_ext_in. intros n I.
  destruct (in_dec string_dec n (map t_in trs)) as [T|T].
  - apply in_map_iff in T as (t & <- & It). specialize (Ht t It I). specialize (Ht' t It I). congruence.
  - assert (Io : In n oshape /\ ~ In n (map t_out trs)).
    { apply without_in. rewrite <- Same. apply without_in. auto. }
    destruct (Ini n I) as [d Fd]. destruct (Ino n (proj1 Io)) as [o Fo].
    destruct (Hg n d o I T Fd Fo) as [L G]. destruct (Hg' n d o I T Fd Fo) as [L' G'].
    pose proof (map_inj_in _ _ _ Eq' n (proj1 Io)) as Ev. rewrite Ev in G.
    exact (goes_inj d o _ _ _ Tr (Di n d I Fd) L' L G' G).
Qed.

(** variables that are not in the output are left out; a variable with an unusable dimension is left
    out and the exception at the end is thrown exactly if there is such a dimension in both files *)
Theorem C37_skipped (idims odims : list dim) trs ms ishape :
  fill_var idims odims trs ms ishape None = Ok None.
Proof. reflexivity. Qed.

Theorem C37_unusable (idims odims : list dim) trs ms ishape oshape n d o :
  (forall d, In d idims -> wf_dim d) -> (forall o, In o odims -> wf_dim o) ->
  map_dims eqb idims odims = Ok ms ->
  In n ishape -> find_dim n idims = Some d -> find_dim n odims = Some o -> ~ usable d o ->
  fill_var idims odims trs ms ishape oshape = Ok None.
Proof.
  intros Wi Wo M I Fd Fo NU. unfold fill_var. destruct oshape as [oshape|]; [|reflexivity].
  destruct (map_dims_ok idims odims Wi Wo) as (ms' & E & H). rewrite M in E. injection E as <-.
  specialize (H n). rewrite Fd in H. destruct H as (r & L & R).
  destruct (find_dim_some _ _ _ Fd) as [Id Nd]. destruct (find_dim_some _ _ _ Fo) as [Io No].
  destruct (map_dim_spec odims d o (Wi d Id) (Wo o Io)) as (sl & bad & M' & B & _); [rewrite Nd; exact Fo|].
  rewrite R in M'. injection M' as ->. destruct bad; [|exfalso; apply NU, B; reflexivity].
  replace (existsb _ ishape) with true; [reflexivity|]. symmetry. apply existsb_exists. exists n. rewrite L. auto.
Qed.

Theorem C37_final_exception (idims odims : list dim) trs vars r bad :
  NoDup (map (@d_name V) idims) ->
  (forall d, In d idims -> wf_dim d) -> (forall o, In o odims -> wf_dim o) ->
  fill eqb idims odims trs vars = Ok (r, bad) ->
  (bad = true <-> exists n d o, find_dim n idims = Some d /\ find_dim n odims = Some o /\ ~ usable d o).
Proof.
  intros ND Wi Wo F. unfold fill in F.
  destruct (map_dims_ok idims odims Wi Wo) as (ms & E & H). rewrite E in F. cbn [obind] in F.
  destruct (omapM _ vars); cbn [obind] in F; try discriminate. injection F as <- <-.
  assert (Nm : map fst ms = map (@d_name V) idims).
  { clear -E. unfold map_dims in E. revert ms E. induction idims as [|d l IH]; cbn [omapM]; intros ms E.
    - injection E as <-. reflexivity.
    - destruct (map_dim eqb odims d); cbn [obind] in E; try discriminate.
      destruct (omapM _ l) as [x| | |] eqn:Q; cbn [obind] in E; try discriminate. injection E as <-. cbn. f_equal. apply IH. reflexivity. }
  rewrite existsb_exists. split.
  - intros ([n [sl b]] & I & B). cbn in B. subst b.
    apply (lookup_in n ms (sl, true)) in I; [|rewrite Nm; exact ND].
    pose proof (H n) as Hn. destruct (find_dim n idims) as [d|] eqn:Fd; [|congruence].
    destruct Hn as (r' & L & R). rewrite I in L. injection L as <-. destruct (find_dim_some _ _ _ Fd) as [Id Nd].
    destruct (find_dim n odims) as [o|] eqn:Fo.
    + destruct (find_dim_some _ _ _ Fo) as [Io No]. exists n, d, o. split; [exact Fd|]. split; [exact Fo|]. intro U.
      destruct (map_dim_spec odims d o (Wi d Id) (Wo o Io)) as (sl' & bad & M' & B & _); [rewrite Nd; exact Fo|].
      rewrite R in M'. injection M' as _ <-. apply B in U. discriminate.
    + unfold map_dim in R. rewrite Nd, Fo in R. discriminate.
  - intros (n & d & o & Fd & Fo & NU). pose proof (H n) as Hn. rewrite Fd in Hn. destruct Hn as ([sl b] & L & R).
    destruct (find_dim_some _ _ _ Fd) as [Id Nd]. destruct (find_dim_some _ _ _ Fo) as [Io No].
    destruct (map_dim_spec odims d o (Wi d Id) (Wo o Io)) as (sl' & bad & M' & B & _); [rewrite Nd; exact Fo|].
    rewrite R in M'. injection M' as _ <-. apply (lookup_in n ms) in L; [|rewrite Nm; exact ND].
    exists (n, (sl, b)). split; [exact L|]. cbn. destruct b; [reflexivity|]. exfalso. apply NU, B. reflexivity.
Qed.

(** Finding: a translation without slice numbers is documented in the code as "do nothing" but throws
    for every variable with that dimension *)
Theorem C37_empty_translation (idims odims : list dim) ms ishape oshape t :
  (forall n, In n ishape -> exists d, find_dim n idims = Some d) ->
  (forall n, In n oshape -> exists d, find_dim n odims = Some d) ->
  existsb (fun n => match lookup n ms with Some (_, true) => true | _ => false end) ishape = false ->
  without [t_in t] ishape = without [t_out t] oshape ->
  In (t_in t) ishape -> t_ins t = [] ->
  fill_var idims odims [t] ms ishape (Some oshape) = Throw.
Proof.
  intros Hi Ho NB Same I Et. unfold fill_var. rewrite NB. cbn [map]. rewrite <- Same, shape_eq_refl. cbn [obind negb].
  destruct (new_sb_ok idims false ishape Hi) as (isb & E & _). rewrite E. cbn [obind].
  destruct (new_sb_ok odims true oshape Ho) as (osb & E' & _). rewrite E'. cbn [obind].
  unfold translate at 1. cbn [map ofold fst snd]. rewrite (proj2 (mem_in _ _) I), Et. reflexivity.
Qed.

(** Finding: an output shape shorter than the input shape is read past its end when it is a prefix *)
Theorem C37_short_output_shape (idims odims : list dim) ms n ishape :
  existsb (fun n => match lookup n ms with Some (_, true) => true | _ => false end) (ishape ++ [n]) = false ->
  fill_var idims odims [] ms (ishape ++ [n]) (Some ishape) = UB.
Proof.
  intro NB. unfold fill_var. rewrite NB. cbn [map]. 
  assert (W : forall l, without [] l = l) by (unfold without; intro l; induction l; cbn in *; congruence).
  rewrite !W. assert (S : shape_eq (ishape ++ [n]) ishape = UB).
  { clear. induction ishape as [|a l IH]; cbn; [reflexivity|]. rewrite String.eqb_refl. exact IH. }
  rewrite S. reflexivity.
Qed.

End Spec.

(** ** Concrete cases: integers as coordinates *)
Local Open Scope string_scope.
Local Open Scope list_scope.
Local Open Scope nat_scope.

Definition ex_i : list (dim nat) := [Dim "x" 2 false (Some [10; 20]); Dim "time" 3 true (Some [6; 12; 18])].
Definition ex_o : list (dim nat) := [Dim "x" 3 false (Some [20; 15; 10]); Dim "time" 2 true (Some [0; 12])].

Lemma nat_eqb_tr a b c : (a =? b) = true -> (a =? c) = true -> (b =? c) = true.
Proof. rewrite !Nat.eqb_eq. congruence. Qed.

Example C37_nonvacuous :
  fillable Nat.eqb ex_i ex_o [] ["x"; "time"] ["x"; "time"] /\
  (forall n d, In n ["x"; "time"] -> find_dim n ex_i = Some d -> distinct Nat.eqb d) /\
  fill Nat.eqb ex_i ex_o [] [(["x"; "time"], Some ["x"; "time"]); (["time"], Some ["time"]); (["x"], None)] =
  Ok ([Some [([0; 0], [2; 2]); ([0; 1], [2; 1]); ([0; 2], [2; 3]); ([1; 0], [0; 2]); ([1; 1], [0; 1]); ([1; 2], [0; 3])];
       Some [([0], [2]); ([1], [1]); ([2], [3])]; None], false).
Proof.
  split; [|split].
  - assert (D : forall n d o, In n ["x"; "time"] -> find_dim n ex_i = Some d -> find_dim n ex_o = Some o -> usable Nat.eqb d o).
    { intros n d o [<-|[<-|[]]] [= <-] [= <-]; unfold usable; cbn [d_coord d_len]; intros i Hi.
      - destruct i as [|[|i]]; [exists 2|exists 0|lia]; (eexists; split; [reflexivity|]); left; (split; [cbn; lia|]);
          (split; [eexists; split; reflexivity|]); intros j w Hj; destruct j as [|[|j]]; cbn; intros N; try lia; injection N as <-; reflexivity.
      - destruct i as [|[|[|i]]]; [exists 2|exists 1|exists 3|lia]; (eexists; split; [reflexivity|]).
        + right. split; [|auto]. intros j w Hj; destruct j as [|[|j]]; cbn in *; intros N; try lia; injection N as <-; reflexivity.
        + left. split; [cbn; lia|]. split; [eexists; split; reflexivity|]. intros j w Hj; destruct j as [|j]; cbn; intros N; try lia; injection N as <-; reflexivity.
        + right. split; [|auto]. intros j w Hj; destruct j as [|[|j]]; cbn in *; intros N; try lia; injection N as <-; reflexivity. }
    unfold fillable. repeat (split; [|try exact D]).
    + intros d [<-|[<-|[]]]; reflexivity.
    + intros d [<-|[<-|[]]]; reflexivity.
    + repeat constructor; cbn; intuition discriminate.
    + repeat constructor; cbn; intuition discriminate.
    + constructor.
    + constructor.
    + intros n [<-|[<-|[]]]; eexists; reflexivity.
    + intros n [<-|[<-|[]]]; eexists; reflexivity.
    + reflexivity.
    + intros t [].
    + intros t [].
  - intros n d [<-|[<-|[]]] [= <-] ic i j v w [= <-] Ni Nj E; apply Nat.eqb_eq in E as ->.
    + destruct i as [|[|[|i]]], j as [|[|[|j]]]; cbn in *; congruence.
    + destruct i as [|[|[|[|i]]]], j as [|[|[|[|j]]]]; cbn in *; congruence.
  - vm_compute. reflexivity.
Qed.

(** a translated dimension: the input has one ensemble member more *)
Example C37_nonvacuous_translation :
  fill Nat.eqb (Dim "m" 2 false None :: ex_i) (Dim "m" 2 false None :: ex_o) [Tr "m" "m" [1] [0]]
    [(["x"; "m"], Some ["x"; "m"])] = Ok ([Some [([0; 1], [2; 0]); ([1; 1], [0; 0])]], false).
Proof. vm_compute. reflexivity. Qed.

(** Finding: an output shape with an additional dimension passes the comparison of shapes; the
    variable is not left out, instead the write fails for the number of values *)
Theorem C37_longer_output_shape :
  exists idims odims : list (dim nat),
    fill Nat.eqb idims odims [] [(["x"], Some ["x"; "y"])] = Throw /\
    fill Nat.eqb idims odims [] [(["y"], Some ["x"; "y"])] = Ok ([None], false).
Proof.
  exists [Dim "x" 2 false None; Dim "y" 3 false None], [Dim "x" 2 false None; Dim "y" 3 false None].
  split; vm_compute; reflexivity.
Qed.

(** Finding: values are copied without regard to scale_factor and add_offset, so where the two files
    differ in them the physical value is not the one of the input *)
Definition physical (scale offset raw : nat) : nat := scale * raw + offset.

Theorem C37_scaling_ignored :
  exists (inp st : store nat) (cs : list (list nat * list nat)) (si oi so oo : nat),
    fill Nat.eqb ex_i ex_o [] [(["x"], Some ["x"])] = Ok ([Some cs], false) /\ In ([0], [2]) cs /\
    physical so oo (apply_copies inp cs st [2]) <> physical si oi (inp [0]).
Proof.
  exists (fun _ => 7), (fun _ => 0), [([0], [2]); ([1], [0])], 1, 0, 10, 0.
  split; [vm_compute; reflexivity|]. split; [cbn; auto|]. vm_compute. discriminate.
Qed.
Print Assumptions C37_copies.
Print Assumptions C37_values.
Print Assumptions C37_exact_values.
Print Assumptions C37_skipped.
Print Assumptions C37_unusable.
Print Assumptions C37_final_exception.
Print Assumptions C37_empty_translation.
Print Assumptions C37_short_output_shape.
Print Assumptions C37_longer_output_shape.
Print Assumptions C37_scaling_ignored.
