(** C73 operations of the pressure conversions, C74 their data. *)
From Coq Require Import NArith ZArith Reals Ascii String List Bool Arith Lia Lra.
From Coq Require Import ZifyBool ZifyNat.
From Verif Require Import Base StdMap ConvertModel CdmModel CdmProofs StringModel PhysModel PconvModel.
Import ListNotations.
Local Open Scope string_scope.
Local Open Scope list_scope.
Local Open Scope nat_scope.

(** ** the operations *)
Lemma find_from_found (f : ascii -> bool) b c d : forall i, f c = true -> (forall x, In x b -> f x = false) ->
  find_from f (b ++ c :: d) i = Some (i + length b).
Proof.
  induction b as [|x b IH]; intros i Hc Hb; cbn [app find_from].
  - rewrite Hc. f_equal. cbn. lia.
  - rewrite (Hb x) by now left. rewrite IH; [f_equal; cbn; lia|exact Hc|]. intros y Hy. apply Hb. now right.
Qed.
Lemma find_from_none (f : ascii -> bool) b : forall i, (forall x, In x b -> f x = false) -> find_from f b i = None.
Proof. induction b as [|x b IH]; intros i Hb; cbn [find_from]; [reflexivity|]. rewrite (Hb x) by now left. apply IH. intros y Hy. apply Hb. now right. Qed.
Lemma find_from_range (f : ascii -> bool) s : forall i p, find_from f s i = Some p -> i <= p < i + length s.
Proof.
  induction s as [|x s IH]; intros i p H; cbn [find_from] in H; [discriminate|]. cbn [length].
  destruct (f x); [injection H as <-; lia|]. apply IH in H. lia.
Qed.

Lemma find_char_found c a b d : ~ In c b -> find_char c (a ++ b ++ c :: d) (length a) = Some (length a + length b).
Proof.
  intro N. unfold find_char. rewrite skipn_app, skipn_all, Nat.sub_diag. cbn [skipn app].
  apply find_from_found; [apply Ascii.eqb_refl|]. intros x Hx. apply Ascii.eqb_neq. intros ->. contradiction.
Qed.
Lemma find_char_none c a b : ~ In c b -> find_char c (a ++ b) (length a) = None.
Proof.
  intro N. unfold find_char. rewrite skipn_app, skipn_all, Nat.sub_diag. cbn [skipn app].
  apply find_from_none. intros x Hx. apply Ascii.eqb_neq. intros ->. contradiction.
Qed.
Lemma find_char_range c s p q : find_char c s p = Some q -> p <= q < length s \/ (p <= q /\ length s < p).
Proof.
  intro H. apply find_from_range in H. rewrite skipn_length in H.
  destruct (le_lt_dec p (length s)); [left; lia|right; lia].
Qed.
Lemma substr_mid a b d : substr (a ++ b ++ d) (length a) (Some (length b)) = Ok b.
Proof.
  unfold substr. rewrite app_length. destruct (length a + length (b ++ d) <? length a) eqn:Q; [lia|].
  rewrite skipn_app, skipn_all, Nat.sub_diag. cbn [skipn app]. rewrite firstn_app, firstn_all, Nat.sub_diag. cbn. now rewrite app_nil_r.
Qed.
Lemma substr_end a b : substr (a ++ b) (length a) None = Ok b.
Proof.
  unfold substr. rewrite app_length. destruct (length a + length b <? length a) eqn:Q; [lia|].
  now rewrite skipn_app, skipn_all, Nat.sub_diag.
Qed.

(** Every text is accepted: no exception, no read outside the text, and the loop ends. *)
Lemma options_total s : forall fuel pos opts, length s <= pos + fuel -> 1 <= fuel -> pos <= length s -> exists o, options_loop fuel s pos opts = Ok o.
Proof.
  induction fuel as [|fuel IH]; intros pos opts Hf H1 Hp; [lia|]. cbn [options_loop].
  destruct (pos + 1 <? length s) eqn:Q; [|eauto].
  destruct (find_char "=" s (pos + 1)) as [eq|] eqn:E.
  - destruct (find_char_range _ _ _ _ E) as [He|He]; [|lia].
    unfold substr at 1. destruct (length s <? pos + 1) eqn:Q1; [lia|]. cbn [obind].
    unfold substr at 1. destruct (length s <? eq + 1) eqn:Q2; [lia|]. cbn [obind].
    destruct (find_char ";" s eq) as [p|] eqn:E2; [|eauto].
    destruct (find_char_range _ _ _ _ E2) as [Hp2|Hp2]; [|lia]. apply IH; lia.
  - unfold substr. destruct (length s <? pos + 1) eqn:Q1; [lia|]. cbn [obind]. eauto.
Qed.
Theorem C73_parse_total s : exists o, parse_operation s = Ok o.
Proof.
  unfold parse_operation. destruct (find_char ";" s 0) as [p|] eqn:E; [|eauto].
  destruct (find_char_range _ _ _ _ E) as [Hp|Hp]; [|lia].
  destruct (options_total s (length s) p []) as (o & ->); try lia. cbn [obind]. eauto.
Qed.

(** one option and all options as text *)
Definition option_text (kv : str * str) : str := ";"%char :: fst kv ++ "="%char :: snd kv.
Definition good_option (kv : str * str) : Prop := ~ In "="%char (fst kv) /\ ~ In ";"%char (snd kv).
Definition options_text (l : list (str * str)) : str := concat (map option_text l).

Lemma options_good tail (H : forall fuel pre opts, length (pre ++ tail) <= length pre + fuel -> 1 <= fuel ->
     options_loop fuel (pre ++ tail) (length pre) opts =
     Ok (match tail with _ :: c :: r => insert (name_ (c :: r)) EmptyString opts | _ => opts end)) :
  (tail = [] \/ exists r, tail = ";"%char :: r) ->
  forall l fuel pre opts, Forall good_option l -> l <> [] \/ tail <> [] -> length (pre ++ options_text l ++ tail) <= length pre + fuel -> 1 <= fuel ->
  options_loop fuel (pre ++ options_text l ++ tail) (length pre) opts =
  Ok (let m := fold_left (fun m kv => insert (name_ (fst kv)) (name_ (snd kv)) m) l opts in
      match tail with _ :: c :: r => insert (name_ (c :: r)) EmptyString m | _ => m end).
Proof.
  intros Ht. induction l as [|(k, v) l IH]; intros fuel pre opts G N Hf H1.
  - cbn [options_text map concat app fold_left] in *. now apply H.
  - inversion G as [|? ? (Gk & Gv) G']; subst. cbn [fst snd] in Gk, Gv.
    destruct fuel as [|fuel]; [lia|]. cbn [fold_left fst snd].
    unfold options_text in *. cbn [map concat] in *. fold (options_text l) in *.
    change (option_text (k, v)) with (";"%char :: k ++ "="%char :: v) in *.
    assert (E : pre ++ ((";"%char :: k ++ "="%char :: v) ++ options_text l) ++ tail
                = (pre ++ [";"%char]) ++ k ++ "="%char :: (v ++ options_text l ++ tail)).
    { rewrite <- !app_assoc. cbn [app]. rewrite <- !app_assoc. reflexivity. }
    rewrite E in *. cbn [options_loop].
    assert (L1 : length pre + 1 = length (pre ++ [";"%char])) by (rewrite app_length; reflexivity).
    rewrite !L1.
    assert (Q : length (pre ++ [";"%char]) <? length ((pre ++ [";"%char]) ++ k ++ "="%char :: v ++ options_text l ++ tail) = true).
    { apply Nat.ltb_lt. rewrite !app_length. cbn [length]. lia. }
    rewrite Q, find_char_found by exact Gk.
    assert (E2 : (pre ++ [";"%char]) ++ k ++ "="%char :: v ++ options_text l ++ tail
                 = ((pre ++ [";"%char]) ++ k) ++ ("="%char :: v) ++ options_text l ++ tail) by (rewrite <- !app_assoc; reflexivity).
    assert (E3 : (pre ++ [";"%char]) ++ k ++ "="%char :: v ++ options_text l ++ tail
                 = ((pre ++ [";"%char]) ++ k ++ ["="%char]) ++ v ++ options_text l ++ tail) by (rewrite <- !app_assoc; reflexivity).
    assert (L2 : length (pre ++ [";"%char]) + length k = length ((pre ++ [";"%char]) ++ k)) by now rewrite (app_length (pre ++ _) k).
    assert (L3 : length (pre ++ [";"%char]) + length k + 1 = length ((pre ++ [";"%char]) ++ k ++ ["="%char])).
    { rewrite (app_length (pre ++ _)), (app_length k). cbn. lia. }
    assert (GV : ~ In ";"%char ("="%char :: v)) by (intros [X|X]; [discriminate|contradiction]).
    assert (K : substr ((pre ++ [";"%char]) ++ k ++ "="%char :: v ++ options_text l ++ tail) (length (pre ++ [";"%char]))
                 (Some (length (pre ++ [";"%char]) + length k - length (pre ++ [";"%char]))) = Ok k).
    { replace (length (pre ++ [";"%char]) + length k - length (pre ++ [";"%char])) with (length k) by lia. apply substr_mid. }
    rewrite K. cbn [obind].
    assert (REST : options_text l ++ tail = [] \/ exists r, options_text l ++ tail = ";"%char :: r).
    { destruct l as [|kv l]; [exact Ht|]. right. unfold options_text. cbn [map concat]. unfold option_text at 1. cbn [app]. eauto. }
    set (m := insert (name_ k) (name_ v) opts) in *.
    destruct REST as [Z|(r & Z)].
    + assert (S0 : find_char ";" ((pre ++ [";"%char]) ++ k ++ "="%char :: v ++ options_text l ++ tail) (length (pre ++ [";"%char]) + length k) = None).
      { rewrite E2, Z, L2, app_nil_r. apply find_char_none. exact GV. }
      rewrite S0.
      assert (VL : length ((pre ++ [";"%char]) ++ k ++ "="%char :: v ++ options_text l ++ tail) - (length (pre ++ [";"%char]) + length k) - 1 = length v).
      { rewrite Z, app_nil_r, (app_length (pre ++ _)), (app_length k). cbn [length]. lia. }
      rewrite VL, E3, L3, substr_mid. cbn [obind].
      apply app_eq_nil in Z. destruct Z as (Z & ->). destruct l as [|kv l]; [reflexivity|discriminate].
    + assert (S1 : find_char ";" ((pre ++ [";"%char]) ++ k ++ "="%char :: v ++ options_text l ++ tail) (length (pre ++ [";"%char]) + length k)
                   = Some (length (pre ++ [";"%char]) + length k + S (length v))).
      { rewrite E2, Z, L2. rewrite find_char_found by exact GV. reflexivity. }
      rewrite S1.
      replace (length (pre ++ [";"%char]) + length k + S (length v) - (length (pre ++ [";"%char]) + length k) - 1) with (length v) by lia.
      rewrite E3, L3 at 1. rewrite substr_mid. cbn [obind].
      assert (E5 : (pre ++ [";"%char]) ++ k ++ "="%char :: v ++ options_text l ++ tail
                 = ((pre ++ [";"%char]) ++ k ++ "="%char :: v) ++ options_text l ++ tail) by (rewrite <- !app_assoc; reflexivity).
      rewrite E5.
      replace (length (pre ++ [";"%char]) + length k + S (length v)) with (length ((pre ++ [";"%char]) ++ k ++ "="%char :: v)).
      2: { rewrite (app_length (pre ++ _)), (app_length k). cbn [length]. lia. }
      apply IH; auto.
      * destruct l; [right|now left]. cbn in Z. rewrite Z. discriminate.
      * rewrite E5 in Hf. rewrite !app_length in *. cbn [length] in *. lia.
      * rewrite E5 in Hf. rewrite Z in Hf. rewrite !app_length in Hf. cbn [length] in Hf. lia.
Qed.

(** the first option of a key, and the empty text for a last key without value *)
Fixpoint first_value (key : string) (l : list (str * str)) : option string :=
  match l with
  | [] => None
  | (k, v) :: l' => if String.eqb key (name_ k) then Some (name_ v) else first_value key l'
  end.

Lemma sfind_insert {A} k (v : A) m key : sfind key (insert k v m) =
  match sfind key m with Some x => Some x | None => if String.eqb key k then Some v else None end.
Proof.
  unfold insert, smem. destruct (sfind k m) eqn:E.
  - destruct (sfind key m) eqn:E2; auto. destruct (String.eqb_spec key k) as [->|]; [congruence|reflexivity].
  - rewrite sfind_sput. destruct (String.eqb_spec key k) as [->|N]; [now rewrite E|]. now destruct (sfind key m).
Qed.
Lemma sfind_options l key : forall m,
  sfind key (fold_left (fun m kv => insert (name_ (fst kv)) (name_ (snd kv)) m) l m) =
  match sfind key m with Some x => Some x | None => first_value key l end.
Proof.
  induction l as [|(k, v) l IH]; intro m; cbn [fold_left first_value fst snd].
  - now destruct (sfind key m).
  - rewrite IH, sfind_insert. destruct (sfind key m); [reflexivity|]. now destruct (String.eqb key (name_ k)).
Qed.

Lemma parse_good conv l tail : ~ In ";"%char conv -> Forall good_option l ->
  (tail = [] \/ tail = [";"%char] \/ exists flag, tail = ";"%char :: flag /\ flag <> [] /\ ~ In "="%char flag) ->
  exists o, parse_operation (conv ++ options_text l ++ tail) = Ok o /\ conversion o = name_ conv /\
    options o = let m := fold_left (fun m kv => insert (name_ (fst kv)) (name_ (snd kv)) m) l [] in
      match tail with _ :: c :: r => insert (name_ (c :: r)) EmptyString m | _ => m end.
Proof.
  intros Hc G T. unfold parse_operation.
  destruct (options_text l ++ tail) as [|x rest] eqn:R.
  - pose proof (find_char_none ";" [] conv Hc) as F. cbn [app length] in F. rewrite app_nil_r, F.
    apply app_eq_nil in R. destruct R as (R & ->). eexists. split; [reflexivity|]. split; [reflexivity|].
    destruct l as [|kv l]; [reflexivity|discriminate].
  - assert (x = ";"%char) as ->.
    { destruct l as [|kv l].
      - cbn in R. destruct T as [T|[T|(f & T & _)]]; rewrite T in R; [discriminate| |]; now injection R.
      - unfold options_text in R. cbn [map concat] in R. unfold option_text at 1 in R. cbn [app] in R. now injection R. }
    pose proof (find_char_found ";" [] conv rest Hc) as F. cbn [app length Nat.add] in F. rewrite F.
    rewrite firstn_app, firstn_all, Nat.sub_diag. cbn [firstn]. rewrite app_nil_r.
    rewrite <- R. rewrite options_good; auto.
    + cbn [obind]. eexists. split; [reflexivity|]. split; reflexivity.
    + clear R F. intros fuel pre opts Hf H1. destruct fuel as [|fuel]; [lia|]. cbn [options_loop].
      destruct T as [->|[->|(flag & -> & N & NE)]].
      * destruct (length pre + 1 <? length (pre ++ [])) eqn:Q; [rewrite app_nil_r in Q; lia|reflexivity].
      * destruct (length pre + 1 <? length (pre ++ [";"%char])) eqn:Q; [rewrite app_length in Q; cbn in Q; lia|reflexivity].
      * destruct flag as [|c flag]; [congruence|].
        assert (Q : length pre + 1 <? length (pre ++ ";"%char :: c :: flag) = true).
        { apply Nat.ltb_lt. rewrite app_length. cbn [length]. lia. }
        rewrite Q.
        replace (pre ++ ";"%char :: c :: flag) with ((pre ++ [";"%char]) ++ c :: flag) by (rewrite <- app_assoc; reflexivity).
        replace (length pre + 1) with (length (pre ++ [";"%char])) by (rewrite app_length; reflexivity).
        rewrite find_char_none by exact NE. rewrite substr_end. reflexivity.
    + destruct T as [->|[->|(f & -> & _)]]; eauto.
    + destruct l; [|left; discriminate]. right. destruct T as [->|[->|(f & -> & _)]]; [|discriminate|discriminate].
      cbn in R. discriminate.
    + rewrite app_length. lia.
    + rewrite R, app_length. cbn [length]. lia.
Qed.

(** C73.  An operation text [conversion;key=value;...] is read as written: a key without an equals sign, a
    value without a semicolon, the first value of a repeated key.  A semicolon at the end is ignored, and a
    last option without an equals sign has the empty value. *)
Theorem C73_parse conv l tail : ~ In ";"%char conv -> Forall good_option l -> tail = [] \/ tail = [";"%char] ->
  exists o, parse_operation (conv ++ options_text l ++ tail) = Ok o /\ conversion o = name_ conv /\
    forall key, sfind key (options o) = first_value key l.
Proof.
  intros Hc G T. destruct (parse_good conv l tail Hc G) as (o & E & C & O); [tauto|].
  exists o. split; [exact E|]. split; [exact C|]. intro key. rewrite O. cbn zeta.
  destruct T as [->| ->]; now rewrite sfind_options.
Qed.
Theorem C73_parse_flag conv l flag : ~ In ";"%char conv -> Forall good_option l -> flag <> [] -> ~ In "="%char flag ->
  exists o, parse_operation (conv ++ options_text l ++ ";"%char :: flag) = Ok o /\ conversion o = name_ conv /\
    forall key, sfind key (options o) = match first_value key l with
                                       | Some v => Some v
                                       | None => if String.eqb key (name_ flag) then Some EmptyString else None
                                       end.
Proof.
  intros Hc G N NE. destruct (parse_good conv l (";"%char :: flag) Hc G) as (o & E & C & O); [right; right; eauto|].
  exists o. split; [exact E|]. split; [exact C|]. intro key. rewrite O. cbn zeta.
  destruct flag as [|c flag]; [congruence|]. now rewrite sfind_insert, sfind_options.
Qed.
(** Finding: an option without value that is not the last one swallows the key of the next one. *)
Theorem C73_flag_swallows : parse_operation (s_ "theta2T;verbose;air_temperature=t2") =
  Ok {| conversion := "theta2T"; options := [("verbose;air_temperature", "t2")] |}.
Proof. reflexivity. Qed.

(** Unknown conversions are refused. *)
Theorem C73_unknown inp css warn op o st : parse_operation op = Ok o ->
  ~ In (conversion o) ["theta2T"; "specific2relative"; "omega2vwind"; "add4Dpressure"] ->
  operation_step inp css warn st op = Throw.
Proof.
  intros P N. unfold operation_step. rewrite P. cbn [obind]. unfold create.
  repeat match goal with |- context[String.eqb ?a ?b] => destruct (String.eqb_spec a b) as [E|_]; [exfalso; apply N; rewrite E; cbn; tauto|] end.
  reflexivity.
Qed.

(** ** the metadata *)

(** [out'] is [out] without the variable [gone] and with the new variable [v] having the attributes [atts] *)
Definition replaced (out out' : cdm) (gone : string -> Prop) (v : cvar) (atts : list cattr) : Prop :=
  dims out' = dims out /\ find_var (v_name v) (vars out') = Some v /\ attrs_of out' (v_name v) = atts /\
  (forall m, gone m -> m <> v_name v -> find_var m (vars out') = None) /\
  (forall m, ~ gone m -> m <> v_name v -> find_var m (vars out') = find_var m (vars out) /\ attrs_of out' m = attrs_of out m).

Lemma attrs_of_absent c n : consistent c -> ~ In n (vnames c) -> n <> global_ns -> attrs_of c n = [].
Proof.
  intros C N G. destruct (attrs_of_none c n) as [E|E]; [exact E|].
  destruct (c_owner c C n); [apply sfind_In; eauto|contradiction|contradiction].
Qed.
Lemma find_var_app n l1 l2 : find_var n (l1 ++ l2) = match find_var n l1 with Some v => Some v | None => find_var n l2 end.
Proof. induction l1 as [|v l1 IH]; [reflexivity|]. cbn. destruct (String.eqb n (v_name v)); auto. Qed.

Lemma add_new out v l1 l2 : consistent out -> ~ In (v_name v) (vnames out) -> v_name v <> global_ns ->
  NoDup (map a_name (l1 ++ l2)) ->
  exists o1 o2 o3, add_var out v = Ok o1 /\ add_all o1 (v_name v) l1 = Ok o2 /\ add_all o2 (v_name v) l2 = Ok o3 /\
    consistent o3 /\ replaced out o3 (fun _ => False) v (l1 ++ l2) /\ vars o3 = vars out ++ [v].
Proof.
  intros C N G ND. unfold add_var. rewrite (proj2 (has_var_false out (v_name v)) N).
  set (o1 := mkCdm (vars out ++ [v]) (dims out) (attrs out)).
  assert (C1 : consistent o1).
  { destruct C as [A B S D E]. constructor; cbn [vars dims attrs]; try assumption.
    - unfold vnames. cbn [vars o1]. now apply nodup_app.
    - intros m M. destruct (D m M); [now left|right]. unfold vnames. cbn [vars o1]. rewrite map_app. apply in_or_app. now left. }
  assert (V1 : In (v_name v) (vnames o1)).
  { unfold vnames. cbn [vars o1]. rewrite map_app. apply in_or_app. right. now left. }
  assert (A1 : attrs_of o1 (v_name v) = []) by (apply (attrs_of_absent out); assumption).
  assert (ND1 : NoDup (map a_name (attrs_of o1 (v_name v) ++ l1))).
  { rewrite A1. cbn [app]. rewrite map_app in ND. clear - ND. induction (map a_name l1) as [|x l IH]; [constructor|].
    cbn [app] in ND. inversion ND; subst. constructor; [intro; apply H1; apply in_or_app; now left|auto]. }
  destruct (add_attrs_spec l1 o1 (v_name v) C1 (or_intror V1) ND1) as (o2 & E2 & C2 & W2 & D2 & A2).
  assert (V2 : In (v_name v) (vnames o2)) by (unfold vnames; rewrite W2; exact V1).
  assert (A2' : attrs_of o2 (v_name v) = l1) by (rewrite A2, String.eqb_refl, A1; reflexivity).
  destruct (add_attrs_spec l2 o2 (v_name v) C2 (or_intror V2)) as (o3 & E3 & C3 & W3 & D3 & A3); [now rewrite A2'|].
  exists o1, o2, o3. split; [reflexivity|]. unfold add_all. rewrite E2, E3. split; [reflexivity|]. split; [reflexivity|].
  split; [exact C3|]. assert (W : vars o3 = vars out ++ [v]) by (rewrite W3, W2; reflexivity). split; [|exact W].
  split; [now rewrite D3, D2|]. rewrite W.
  assert (FN : find_var (v_name v) (vars out) = None).
  { apply has_var_false in N. unfold has_var in N. destruct (find_var (v_name v) (vars out)); [discriminate|reflexivity]. }
  split; [|split; [|split]].
  - rewrite find_var_app, FN. cbn. now rewrite String.eqb_refl.
  - rewrite A3, String.eqb_refl, A2'. reflexivity.
  - intros m [].
  - intros m _ M. split.
    + rewrite find_var_app. cbn. rewrite (proj2 (String.eqb_neq _ _)) by exact M. now destruct (find_var m (vars out)).
    + assert (Q : (m =? v_name v)%string = false) by (now apply String.eqb_neq). rewrite A3, Q, A2, Q. reflexivity.
Qed.

Lemma replaced_remove out o v atts n : replaced out o (fun _ => False) v atts -> n <> v_name v ->
  replaced out (remove_var o n) (fun m => m = n) v atts.
Proof.
  intros (D & F & A & _ & O) N. split; [exact D|].
  rewrite find_var_removed, attrs_of_removed. rewrite (proj2 (String.eqb_neq (v_name v) n)) by congruence.
  split; [exact F|]. split; [exact A|]. split.
  - intros m -> _. rewrite find_var_removed, String.eqb_refl. reflexivity.
  - intros m G M. rewrite find_var_removed, attrs_of_removed, (proj2 (String.eqb_neq m n)) by exact G. apply O; auto.
Qed.

Lemma nodup_filter_names (f : cattr -> bool) l : NoDup (map a_name l) -> NoDup (map a_name (filter f l)).
Proof.
  induction l as [|a l IH]; intro H; [constructor|]. cbn [map filter] in *. inversion H; subst.
  destruct (f a); [|auto]. cbn [map]. constructor; [|auto]. intro I. apply H2.
  apply in_map_iff in I. destruct I as (x & <- & I). apply filter_In in I. apply in_map. apply I.
Qed.
Lemma nodup_filtered names l extra : NoDup (map a_name l) -> NoDup (map a_name extra) ->
  (forall a, In a extra -> In (a_name a) names) -> NoDup (map a_name (filter (not_in names) l ++ extra)).
Proof.
  intros H1 H2 H. rewrite map_app.
  assert (G : forall x y : list string, NoDup x -> NoDup y -> (forall a, In a x -> ~ In a y) -> NoDup (x ++ y)).
  { clear. induction x as [|a x IH]; intros y Hx Hy D; [exact Hy|]. inversion Hx; subst. cbn. constructor.
    - intro I. apply in_app_or in I. destruct I; [contradiction|]. apply (D a); [now left|assumption].
    - apply IH; auto. intros b Hb. apply D. now right. }
  apply G; [now apply nodup_filter_names|exact H2|]. intros a I J.
  apply in_map_iff in I. destruct I as (x & <- & I). apply filter_In in I. destruct I as (_ & I).
  apply in_map_iff in J. destruct J as (y & E & J). specialize (H y J). rewrite E in H.
  unfold not_in in I. assert (existsb (String.eqb (a_name x)) names = true); [|rewrite H0 in I; discriminate].
  apply existsb_exists. exists (a_name x). split; [exact H|apply String.eqb_refl].
Qed.

(** The candidates of an operation: the variable named by the option if the input has it, otherwise the
    variables of the input with the wanted standard name. *)
Theorem C73_candidates inp o key std n : NoDup (vnames inp) ->
  (In n (find_candidates inp o key std) <->
   In n (vnames inp) /\ match sfind key (options o) with
                        | Some m => n = m
                        | None => exists a, get_attr inp n "standard_name" = Some a /\ std (a_text a) = true
                        end).
Proof.
  intro ND. unfold find_candidates. destruct (sfind key (options o)) as [m|].
  - destruct (has_var inp m) eqn:H.
    + apply has_var_in in H. split; [intros [<-|[]]; auto|]. intros (_ & ->). now left.
    + apply has_var_false in H. split; [intros []|]. intros (I & ->). contradiction.
  - unfold find_variables, vnames. rewrite !in_map_iff. split.
    + intros (v & <- & I). apply filter_In in I. destruct I as (I & E). split; [eauto|].
      cbn [forallb fst snd] in E. rewrite !andb_true_r in E.
      destruct (get_attr inp (v_name v) "standard_name") as [a|] eqn:Ga; [|discriminate]. eauto.
    + intros ((v & <- & I) & a & Ga & E). exists v. split; [reflexivity|]. apply filter_In. split; [exact I|].
      cbn [forallb fst snd]. rewrite Ga, E. reflexivity.
Qed.
Lemma candidate_in inp o key std n : NoDup (vnames inp) -> In n (find_candidates inp o key std) ->
  exists v, find_var n (vars inp) = Some v.
Proof.
  intros ND I. apply (C73_candidates inp o key std n ND) in I. destruct I as (I & _).
  apply has_var_in in I. unfold has_var in I. destruct (find_var n (vars inp)) as [v|]; [eauto|discriminate].
Qed.

Lemma ofold_app {T B} (f : T -> B -> outcome T) l1 l2 s : ofold f (l1 ++ l2) s = (do s' <- ofold f l1 s; ofold f l2 s').
Proof. revert s. induction l1 as [|x l1 IH]; intro s; [reflexivity|]. cbn [app ofold]. destruct (f s x); cbn [obind]; auto. Qed.
Lemma find_cs_none css n : (forall c, In c css -> cs_complete c n = false) -> find_cs css n = None.
Proof.
  intro Q. unfold find_cs. induction css as [|c l IH]; [reflexivity|]. cbn [find]. rewrite Q by (now left).
  apply IH. intros c0 H. apply Q. now right.
Qed.

Section Factory.
Context (inp : cdm) (css : list csys) (warn : bool) (o : operation).
Hypothesis Hin : consistent inp.

(** Potential temperature: the first candidate having a complete coordinate system is replaced by the
    temperature, which has its type, shape and attributes except the names; all other candidates stay.
    Nothing happens without such a candidate or if the temperature exists. *)
Theorem C73_theta frame out pre theta post cs v :
  let t := option_or o "air_temperature" "air_temperature" in
  consistent out -> ~ In t (vnames out) -> t <> global_ns -> t <> theta ->
  find_candidates inp o "air_potential_temperature" (is_name "air_potential_temperature") = pre ++ theta :: post ->
  (forall n c, In n pre -> In c css -> cs_complete c n = false) ->
  find_cs css theta = Some cs -> find_var theta (vars inp) = Some v ->
  exists out', create_theta inp css o frame out = Ok (out', [Theta t cs (frame, length pre)]) /\
    replaced out out' (fun m => m = theta) (mkVar t (v_type v) (v_shape v) "" None)
      (filter (not_in ["standard_name"; "long_name"]) (attrs_of inp theta) ++ [text_attr "standard_name" "air_temperature"]).
Proof.
  intros t C N G NT L P F V. unfold create_theta, theta_candidates. rewrite L.
  destruct (add_new out (mkVar t (v_type v) (v_shape v) "" None)
              (filter (not_in ["standard_name"; "long_name"]) (attrs_of inp theta)) [text_attr "standard_name" "air_temperature"])
    as (o1 & o2 & o3 & E1 & E2 & E3 & C3 & R & W); try assumption.
  { apply nodup_filtered; [apply (c_attrs inp Hin)|repeat constructor; intros []|]. intros a [<-|[]]. cbn. tauto. }
  cbn [v_name] in *.
  exists (remove_var o3 theta). split; [|apply replaced_remove; [exact R|cbn [v_name]; congruence]].
  assert (SKIP : forall l i, (forall n c, In n l -> In c css -> cs_complete c n = false) -> forall acc,
             ofold (theta_body inp css o frame) (combine (seq i (length l)) l) acc = Ok acc).
  { induction l as [|n l IH]; intros i Q (a, b0); [reflexivity|]. cbn [length seq combine ofold theta_body].
    assert (find_cs css n = None) as ->.
    { apply find_cs_none. intros c0 H2. apply Q; [now left|exact H2]. }
    cbn [obind]. apply IH. intros n0 c0 H1 H2. apply Q; [now right|exact H2]. }
  assert (HAS : has_var (remove_var o3 theta) t = true).
  { apply has_var_in. apply vnames_removed. split; [congruence|]. unfold vnames. rewrite W, map_app. apply in_or_app. right. now left. }
  assert (REST : forall l i acc, ofold (theta_body inp css o frame) (combine (seq i (length l)) l) (remove_var o3 theta, acc) = Ok (remove_var o3 theta, acc)).
  { induction l as [|n l IH]; intros i acc; [reflexivity|]. cbn [length seq combine ofold theta_body].
    destruct (find_cs css n) as [c|].
    - change (derive_name o "air_temperature") with t. rewrite HAS. cbn [obind]. apply IH.
    - cbn [obind]. apply IH. }
  assert (SPLIT : combine (seq 0 (length (pre ++ theta :: post))) (pre ++ theta :: post)
                  = combine (seq 0 (length pre)) pre ++ (length pre, theta) :: combine (seq (S (length pre)) (length post)) post).
  { rewrite app_length. cbn [length]. rewrite seq_app. cbn [Nat.add seq].
    assert (G0 : forall (A B : Type) (x : list A) (y : list B) x' y', length x = length y -> combine (x ++ x') (y ++ y') = combine x y ++ combine x' y').
    { clear. induction x as [|a x IH]; intros [|b0 y] x' y' H; try discriminate; [reflexivity|]. cbn. f_equal. apply IH. now injection H. }
    rewrite G0 by apply seq_length. reflexivity. }
  rewrite SPLIT, ofold_app, SKIP by exact P. cbn [obind ofold theta_body]. rewrite F.
  change (derive_name o "air_temperature") with t.
  rewrite (proj2 (has_var_false out t) N). unfold get_var. rewrite V. cbn [obind]. rewrite E1. cbn [obind]. rewrite E2. cbn [obind].
  rewrite E3. cbn [obind app]. apply REST.
Qed.
Theorem C73_theta_nothing frame out :
  In (option_or o "air_temperature" "air_temperature") (vnames out) \/
  (forall n c, In n (find_candidates inp o "air_potential_temperature" (is_name "air_potential_temperature")) -> In c css -> cs_complete c n = false) ->
  create_theta inp css o frame out = Ok (out, []).
Proof.
  intro H. unfold create_theta, theta_candidates.
  set (L := find_candidates _ _ _ _) in *. clearbody L.
  assert (G : forall l i, (forall n, In n l -> In n L) -> ofold (theta_body inp css o frame) (combine (seq i (length l)) l) (out, []) = Ok (out, [])).
  { induction l as [|n l IH]; intros i Q; [reflexivity|]. cbn [length seq combine ofold theta_body].
    destruct (find_cs css n) as [c|] eqn:F.
    - destruct H as [H|H].
      + change (derive_name o "air_temperature") with (option_or o "air_temperature" "air_temperature").
        rewrite (proj2 (has_var_in _ _) H). cbn [obind]. apply IH. intros; apply Q; now right.
      + apply find_some in F. destruct F as (I & E). rewrite (H n c) in E; [discriminate|apply Q; now left|exact I].
    - cbn [obind]. apply IH. intros; apply Q; now right. }
  now apply G.
Qed.

(** Specific humidity: the first candidate having a complete coordinate system gets the relative humidity
    beside it, packed as short, with its shape and its attributes except those of names, unit, packing
    and range.  The first temperature is used; it must be in the coordinate system of every candidate. *)
Theorem C73_humidity out pre sp post cs v t temps :
  let rh := option_or o "relative_humidity" "relative_humidity" in
  consistent out -> ~ In rh (vnames out) -> rh <> global_ns ->
  find_candidates inp o "specific_humidity" (is_name "specific_humidity") = pre ++ sp :: post ->
  find_candidates inp o "air_temperature" (is_name "air_temperature") = t :: temps ->
  (forall n c, In n pre -> In c css -> cs_complete c n = false) ->
  find_cs css sp = Some cs -> find_var sp (vars out) = Some v ->
  (forall n c, In n (sp :: post) -> find_cs css n = Some c -> cs_complete c t = true) ->
  exists out', create_humidity inp css warn o out = Ok (out', [Humidity rh cs sp t]) /\
    exists added, map a_name added = ["standard_name"; "long_name"; "units"; "valid_min"; "valid_max"; "scale_factor"] /\
      replaced out out' (fun _ => False) (mkVar rh DShort (v_shape v) "" None)
        (filter (not_in ["standard_name"; "long_name"; "units"; "scale_factor"; "add_offset"; "_FillValue"; "valid_min"; "valid_max"; "valid_range"])
                (attrs_of out sp) ++ added) /\
      option_map a_text (find_attr "standard_name" added) = Some "relative_humidity" /\
      option_map a_text (find_attr "units" added) = Some "1" /\
      option_map a_nums (find_attr "scale_factor" added) = Some [Some (Qcanon.Qcdiv (z2q 1) (z2q 25000))].
Proof.
  intros rh C N G L LT P F V FIT. unfold create_humidity. rewrite L, LT.
  set (added := [text_attr "standard_name" "relative_humidity";
                 text_attr "long_name" ("relative humidity derived from " ++ sp ++ " and " ++ t)%string;
                 text_attr "units" "1";
                 mkAttr "valid_min" DInt [Some (z2q 0)] "0"; mkAttr "valid_max" DShort [Some (z2q 25000)] "25000";
                 mkAttr "scale_factor" DFloat [Some (Qcanon.Qcdiv (z2q 1) (z2q 25000))] "4e-05"]).
  destruct (add_new out (mkVar rh DShort (v_shape v) "" None) (filter (not_in humidity_dropped) (attrs_of out sp)) added)
    as (o1 & o2 & o3 & E1 & E2 & E3 & C3 & R & W); try assumption.
  { apply nodup_filtered; [apply (c_attrs out C)| |].
    - unfold added. cbn [map a_name text_attr]. repeat (constructor; [cbn; intuition discriminate|]). constructor.
    - intros a I. unfold added in I. cbn [In] in I.
      repeat (destruct I as [<-|I]; [cbn; tauto|]). destruct I. }
  cbn [v_name] in *. exists o3. split.
  2: { exists added. split; [reflexivity|]. split; [exact R|]. split; [reflexivity|]. split; reflexivity. }
  assert (SKIP : forall l, (forall n c, In n l -> In c css -> cs_complete c n = false) -> forall acc,
             ofold (humidity_body css warn o (t :: temps)) l acc = Ok acc).
  { induction l as [|n l IH]; intros Q (a, b0); [reflexivity|]. cbn [ofold humidity_body].
    rewrite find_cs_none by (intros c0 H2; apply Q; [now left|exact H2]).
    cbn [obind]. apply IH. intros n0 c0 H1 H2. apply Q; [now right|exact H2]. }
  assert (HAS : has_var o3 rh = true).
  { apply has_var_in. unfold vnames. rewrite W, map_app. apply in_or_app. right. now left. }
  assert (REST : forall l acc, (forall n c, In n l -> find_cs css n = Some c -> cs_complete c t = true) ->
             ofold (humidity_body css warn o (t :: temps)) l (o3, acc) = Ok (o3, acc)).
  { induction l as [|n l IH]; intros acc Q; [reflexivity|]. cbn [ofold humidity_body].
    destruct (find_cs css n) as [c|] eqn:Fc.
    - rewrite (Q n c) by (auto; now left). cbn [negb].
      change (derive_name o "relative_humidity") with rh. rewrite HAS. cbn [obind]. apply IH. intros n0 c0 H1; apply Q; now right.
    - cbn [obind]. apply IH. intros n0 c0 H1; apply Q; now right. }
  rewrite ofold_app, SKIP by exact P. cbn [obind ofold humidity_body]. rewrite F.
  rewrite (FIT sp cs) by (auto; now left). cbn [negb].
  change (derive_name o "relative_humidity") with rh.
  rewrite (proj2 (has_var_false out rh) N). unfold get_var. rewrite V. cbn [obind]. rewrite E1. cbn [obind]. rewrite E2. cbn [obind].
  fold added. rewrite E3. cbn [obind app]. apply REST. intros n c H1. apply FIT. now right.
Qed.
(** Finding: if the first temperature is not in the coordinate system of the humidity, the search for
    another one never ends inside the list, even if the second temperature would fit. *)
Theorem C73_humidity_second_temperature out pre sp post cs t temps :
  find_candidates inp o "specific_humidity" (is_name "specific_humidity") = pre ++ sp :: post ->
  find_candidates inp o "air_temperature" (is_name "air_temperature") = t :: temps ->
  (forall n c, In n pre -> In c css -> cs_complete c n = false) ->
  find_cs css sp = Some cs -> cs_complete cs t = false ->
  create_humidity inp css warn o out = UB.
Proof.
  intros L LT P F NF. unfold create_humidity. rewrite L, LT, ofold_app.
  assert (SKIP : forall l, (forall n c, In n l -> In c css -> cs_complete c n = false) -> forall acc,
             ofold (humidity_body css warn o (t :: temps)) l acc = Ok acc).
  { induction l as [|n l IH]; intros Q (a, b0); [reflexivity|]. cbn [ofold humidity_body].
    rewrite find_cs_none by (intros c0 H2; apply Q; [now left|exact H2]).
    cbn [obind]. apply IH. intros n0 c0 H1 H2. apply Q; [now right|exact H2]. }
  rewrite SKIP by exact P. cbn [obind ofold humidity_body]. rewrite F, NF. reflexivity.
Qed.

(** Vertical wind from omega: with exactly one omega and one temperature in its coordinate system, omega is
    replaced by the wind in m/s on the same shape. *)
Theorem C73_omega out om t cs v :
  let w := option_or o "upward_air_velocity" "upward_air_velocity" in
  consistent out -> ~ In w (vnames out) -> w <> global_ns -> ~ In w (vnames inp) ->
  find_candidates inp o "omega" is_omega = [om] ->
  find_candidates inp o "air_temperature" (is_name "air_temperature") = [t] ->
  find_cs css om = Some cs -> cs_complete cs t = true -> find_var om (vars inp) = Some v ->
  exists out', create_omega inp css o out = Ok (out', [Omega w cs om t]) /\
    replaced out out' (fun m => m = om) (mkVar w DFloat (v_shape v) "" None)
      [text_attr "standard_name" "upward_air_velocity"; text_attr "units" "m/s"].
Proof.
  intros w C N G NI L LT F FT V. unfold create_omega. rewrite L, LT, F, FT. cbn [negb].
  change (derive_name o "upward_air_velocity") with w. rewrite (proj2 (has_var_false out w) N).
  unfold get_var. rewrite V. cbn [obind].
  destruct (add_new out (mkVar w DFloat (v_shape v) "" None) [text_attr "standard_name" "upward_air_velocity"; text_attr "units" "m/s"] [])
    as (o1 & o2 & o3 & E1 & E2 & E3 & C3 & R & W); try assumption.
  { cbn. repeat (constructor; [cbn; intuition discriminate|]). constructor. }
  cbn [v_name] in *. rewrite E1. cbn [obind]. rewrite E2. cbn [obind].
  assert (get_attr inp w "coordinates" = None) as ->.
  { unfold get_attr. destruct (sfind w (attrs inp)) as [l|] eqn:S; [|reflexivity].
    destruct (c_owner inp Hin w); [apply sfind_In; eauto|contradiction|contradiction]. }
  rewrite E3. cbn [obind]. eexists. split; [reflexivity|]. apply replaced_remove; [exact R|]. cbn [v_name].
  intros ->. apply NI. unfold vnames. apply find_some in V. destruct V as (I & Q). apply String.eqb_eq in Q. rewrite Q. now apply in_map.
Qed.

(** 4D pressure: a coordinate system can be used if it has all axes and a converter to pressure whose other
    dimensions have a single element; then it has a shape x, y, z, t and the length of its z axis *)
Definition usable (c : csys) : option (list string * N * list string) :=
  match cs_x c, cs_y c, cs_z c, cs_t c, cs_trans c with
  | Some (x :: _), Some (y :: _), Some (z :: _), Some (t :: _), Some (VConv vshape) =>
      match find_dim z (dims inp) with
      | Some d => if forallb (fun n => existsb (String.eqb n) [x; y; z; t] ||
                                 match find_dim n (dims inp) with Some e => (d_len e <=? 1)%N | None => false end) vshape
                  then Some (vshape, d_len d, [x; y; z; t]) else None
      | None => None
      end
  | _, _, _, _, _ => None
  end.

Lemma pressure_body_spec best c best' : pressure_body inp best c = Ok best' ->
  best' = match usable c with
          | Some (vs, n, s) => if match best with Some (_, old, _) => (n <=? old)%N | None => false end then best else Some (vs, n, s)
          | None => best
          end.
Proof.
  unfold pressure_body, usable. intro H.
  destruct (cs_x c) as [x|], (cs_y c) as [y|], (cs_z c) as [z|], (cs_t c) as [t|]; try (injection H as <-; try destruct x; try destruct y; try destruct z; try destruct t; reflexivity).
  destruct z as [|z0 z]; [discriminate|]. cbn [nth_error rd obind] in H.
  unfold dim_len at 1 in H. destruct (find_dim z0 (dims inp)) as [d|] eqn:Fd; [|discriminate]. cbn [obind] in H.
  set (le := match best with Some (_, old, _) => (d_len d <=? old)%N | None => false end) in *.
  destruct le eqn:LE.
  { injection H as <-. destruct x as [|x0 x]; [reflexivity|]. destruct y as [|y0 y]; [reflexivity|]. destruct t as [|t0 t]; [reflexivity|].
    destruct (cs_trans c) as [[| |vs]|]; try reflexivity. destruct (forallb _ vs); [|reflexivity]. fold le. now rewrite LE. }
  destruct (cs_trans c) as [vr|]; [|injection H as <-; destruct x, y, t; reflexivity].
  destruct vr as [| |vs]; [injection H as <-; destruct x, y, t; reflexivity| |].
  { exfalso. destruct x; [discriminate|]. destruct y; [discriminate|]. destruct t; discriminate. }
  destruct x as [|x0 x]; [discriminate|]. destruct y as [|y0 y]; [discriminate|]. destruct t as [|t0 t]; [discriminate|].
  cbn [nth_error rd obind] in H.
  match type of H with context[omapM ?f vs] => set (ff := f) in H end.
  set (gg := fun n => existsb (String.eqb n) [x0; y0; z0; t0] || match find_dim n (dims inp) with Some e => (d_len e <=? 1)%N | None => false end).
  assert (K : forall l r, omapM ff l = Ok r -> existsb (fun b => b) r = negb (forallb gg l)).
  { clear H. induction l as [|n l IH]; intros r Hr; cbn [omapM] in Hr; [injection Hr as <-; reflexivity|].
    destruct (ff n) as [b1| | |] eqn:F1; try discriminate. cbn [obind] in Hr.
    destruct (omapM ff l) as [r'| | |] eqn:F2; try discriminate. cbn [obind] in Hr. injection Hr as <-.
    cbn [existsb forallb]. rewrite (IH r' eq_refl), negb_andb. f_equal.
    unfold ff in F1. unfold gg. destruct (existsb (String.eqb n) [x0; y0; z0; t0]); [injection F1 as <-; reflexivity|].
    unfold dim_len in F1. destruct (find_dim n (dims inp)) as [e|]; [|discriminate]. cbn [obind] in F1. injection F1 as <-.
    cbn [orb]. destruct (N.leb_spec (d_len e) 1), (N.ltb_spec 1 (d_len e)); try reflexivity; lia. }
  destruct (omapM ff vs) as [r| | |] eqn:Fr; try discriminate. cbn [obind] in H. rewrite (K vs r Fr) in H.
  fold gg. destruct (forallb gg vs); cbn [negb] in H.
  - injection H as <-. fold le. now rewrite LE.
  - now injection H as <-.
Qed.

Definition best_of (l : list csys) (b : option (list string * N * list string)) : Prop :=
  match b with
  | None => forall c, In c l -> usable c = None
  | Some (vs, n, s) => exists l1 c l2, l = l1 ++ c :: l2 /\ usable c = Some (vs, n, s) /\
      (forall c' v' n' s', In c' l1 -> usable c' = Some (v', n', s') -> (n' < n)%N) /\
      (forall c' v' n' s', In c' l2 -> usable c' = Some (v', n', s') -> (n' <= n)%N)
  end.
Lemma pressure_fold l2 : forall l1 b b', best_of l1 b -> ofold (pressure_body inp) l2 b = Ok b' -> best_of (l1 ++ l2) b'.
Proof.
  induction l2 as [|c l2 IH]; intros l1 b b' B H; cbn [ofold] in H.
  - injection H as <-. now rewrite app_nil_r.
  - destruct (pressure_body inp b c) as [b1| | |] eqn:E; try discriminate. cbn [obind] in H.
    replace (l1 ++ c :: l2) with ((l1 ++ [c]) ++ l2) by (rewrite <- app_assoc; reflexivity).
    apply (IH _ b1); [|exact H]. apply pressure_body_spec in E. subst b1.
    destruct (usable c) as [((vs, n), s)|] eqn:U.
    + destruct b as [((vs0, n0), s0)|].
      * destruct (n <=? n0)%N eqn:LE.
        -- destruct B as (a & c0 & d & -> & U0 & B1 & B2). exists a, c0, (d ++ [c]).
           split; [rewrite <- app_assoc; reflexivity|]. split; [exact U0|]. split; [exact B1|].
           intros c' v' n' s' I. apply in_app_or in I. destruct I as [I|[<-|[]]]; [eauto|]. rewrite U. intros [= <- <- <-]. now apply N.leb_le.
        -- apply N.leb_gt in LE. destruct B as (a & c0 & d & -> & U0 & B1 & B2).
           exists (a ++ c0 :: d), c, []. split; [reflexivity|]. split; [exact U|]. split; [|intros ? ? ? ? []].
           intros c' v' n' s' I U'. apply in_app_or in I. destruct I as [I|[<-|I]].
           ++ specialize (B1 _ _ _ _ I U'). lia.
           ++ rewrite U0 in U'. injection U' as <- <- <-. exact LE.
           ++ specialize (B2 _ _ _ _ I U'). lia.
      * exists l1, c, []. split; [reflexivity|]. split; [exact U|]. split; [|intros ? ? ? ? []].
        intros c' v' n' s' I U'. rewrite (B c' I) in U'. discriminate.
    + destruct b as [((vs0, n0), s0)|].
      * destruct B as (a & c0 & d & -> & U0 & B1 & B2). exists a, c0, (d ++ [c]).
        split; [rewrite <- app_assoc; reflexivity|]. split; [exact U0|]. split; [exact B1|].
        intros c' v' n' s' I U'. apply in_app_or in I. destruct I as [I|[<-|[]]]; [eauto|congruence].
      * intros c' I. apply in_app_or in I. destruct I as [I|[<-|[]]]; [auto|exact U].
Qed.

(** The pressure uses the first coordinate system with the longest z axis among those that can be used. *)
Theorem C73_pressure out out' convs :
  let p := option_or o "air_pressure4D" "air_pressure4D" in
  consistent out -> ~ In p (vnames out) -> p <> global_ns ->
  create_pressure inp css o out = Ok (out', convs) ->
  exists l1 c l2 vshape n shape, css = l1 ++ c :: l2 /\ usable c = Some (vshape, n, shape) /\
    (forall c' v' n' s', In c' l1 -> usable c' = Some (v', n', s') -> (n' < n)%N) /\
    (forall c' v' n' s', In c' l2 -> usable c' = Some (v', n', s') -> (n' <= n)%N) /\
    convs = [Pressure4D p vshape shape] /\
    replaced out out' (fun _ => False) (mkVar p DFloat shape "" None) [text_attr "units" "hPa"; text_attr "standard_name" "air_pressure"].
Proof.
  intros p C N G H. unfold create_pressure in H. fold p in H. rewrite (proj2 (has_var_false out p) N) in H.
  destruct (ofold (pressure_body inp) css None) as [b| | |] eqn:E; try discriminate. cbn [obind] in H.
  apply (pressure_fold css [] None b) in E; [|intros c []]. cbn [app] in E.
  destruct b as [((vshape, n), shape)|]; [|discriminate]. destruct E as (l1 & c & l2 & E & U & B1 & B2).
  exists l1, c, l2, vshape, n, shape. split; [exact E|]. split; [exact U|]. split; [exact B1|]. split; [exact B2|].
  destruct (add_new out (mkVar p DFloat shape "" None) [text_attr "units" "hPa"; text_attr "standard_name" "air_pressure"] [])
    as (o1 & o2 & o3 & E1 & E2 & E3 & C3 & R & W); try assumption.
  { cbn. repeat (constructor; [cbn; intuition discriminate|]). constructor. }
  cbn [v_name] in *. rewrite E1 in H. cbn [obind] in H. rewrite E2 in H. cbn [obind] in H. injection H as <- <-.
  split; [reflexivity|]. cbn [add_all add_attrs] in E3. unfold add_all in E3. cbn [add_attrs] in E3. injection E3 as <-. exact R.
Qed.
(** Without such a coordinate system the operation is refused (it never succeeds silently). *)
Theorem C73_pressure_none out : ~ In (option_or o "air_pressure4D" "air_pressure4D") (vnames out) ->
  (forall c, In c css -> usable c = None) -> forall r, create_pressure inp css o out <> Ok r.
Proof.
  intros N H r E. unfold create_pressure in E. rewrite (proj2 (has_var_false out _) N) in E.
  destruct (ofold (pressure_body inp) css None) as [b| | |] eqn:F; try discriminate. cbn [obind] in E.
  apply (pressure_fold css [] None b) in F; [|intros c []]. cbn [app] in F.
  destruct b as [((vshape, n), shape)|]; [|discriminate]. destruct F as (l1 & c & l2 & -> & U & _).
  rewrite H in U; [discriminate|]. apply in_or_app. right. now left.
Qed.
(** Finding: an exception from the vertical transformation is caught, and then the null pointer is used. *)
Theorem C73_pressure_exception out c rest x y z t d : ~ In (option_or o "air_pressure4D" "air_pressure4D") (vnames out) ->
  css = c :: rest -> cs_x c = Some [x] -> cs_y c = Some [y] -> cs_z c = Some [z] -> cs_t c = Some [t] ->
  find_dim z (dims inp) = Some d -> cs_trans c = Some VThrow -> create_pressure inp css o out = UB.
Proof.
  intros N -> X Y Z T D V. unfold create_pressure. rewrite (proj2 (has_var_false out _) N).
  cbn [ofold]. unfold pressure_body at 1. rewrite X, Y, Z, T. cbn [nth_error rd obind]. unfold dim_len. rewrite D. cbn [obind]. rewrite V. reflexivity.
Qed.
End Factory.

(** ** the data *)

(** Variables without a converter are passed on. *)
Theorem C74_passed_on src st name : sfind name (c_convs st) = None ->
  get_slice src st name = (do d <- s_slice src name; Ok (Floats d)).
Proof. intro H. unfold get_slice. now rewrite H. Qed.

Lemma frames_dead inp css warn : forall ops st st', ofold (operation_step inp css warn) ops st = Ok st' ->
  Forall (fun f => f = None) (c_frames st) -> Forall (fun f => f = None) (c_frames st').
Proof.
  induction ops as [|op ops IH]; intros st st' H F; cbn [ofold] in H; [now injection H as <-|].
  destruct (operation_step inp css warn st op) as [st1| | |] eqn:E; try discriminate. cbn [obind] in H.
  apply (IH st1); [exact H|]. unfold operation_step in E.
  destruct (parse_operation op) as [o| | |]; try discriminate. cbn [obind] in E.
  destruct (create inp css warn o (length (c_frames st)) (c_out st)) as [(out, convs)| | |]; try discriminate. cbn [obind] in E.
  injection E as <-. cbn [c_frames]. apply Forall_app. split; [exact F|]. repeat constructor.
Qed.
(** Finding: the name of the potential temperature is kept as a reference to a string of the constructor;
    reading the converted temperature uses it after its end. *)
Theorem C74_theta_dangling inp css warn ops st src name cs r p :
  construct inp css warn ops = Ok st -> sfind name (c_convs st) = Some (Theta name cs r) ->
  s_pressure src cs = Ok p -> get_slice src st name = UB.
Proof.
  intros H F P. unfold get_slice. rewrite F. cbn [convert]. rewrite P. cbn [obind].
  unfold deref. apply frames_dead in H; [|constructor].
  destruct (nth_error (c_frames st) (fst r)) as [f|] eqn:E; [|reflexivity].
  rewrite Forall_forall in H. rewrite (H f); [reflexivity|]. now apply nth_error_In in E.
Qed.

(** Each conversion is carried out by its own factory; a converter made earlier for the same name stays. *)
Theorem C73_step inp css warn st op o out' convs : parse_operation op = Ok o ->
  (conversion o = "theta2T" /\ create_theta inp css o (length (c_frames st)) (c_out st) = Ok (out', convs)) \/
  (conversion o = "specific2relative" /\ create_humidity inp css warn o (c_out st) = Ok (out', convs)) \/
  (conversion o = "omega2vwind" /\ create_omega inp css o (c_out st) = Ok (out', convs)) \/
  (conversion o = "add4Dpressure" /\ create_pressure inp css o (c_out st) = Ok (out', convs)) ->
  exists st', operation_step inp css warn st op = Ok st' /\ c_out st' = out' /\
    forall n, sfind n (c_convs st') = match sfind n (c_convs st) with
                                      | Some c => Some c
                                      | None => find (fun c => String.eqb n (conv_name c)) convs
                                      end.
Proof.
  intros P H. unfold operation_step. rewrite P. cbn [obind].
  assert (C : create inp css warn o (length (c_frames st)) (c_out st) = Ok (out', convs)).
  { unfold create. destruct H as [(-> & E)|[(-> & E)|[(-> & E)|(-> & E)]]]; cbn; exact E. }
  rewrite C. cbn [obind]. eexists. split; [reflexivity|]. cbn [c_out c_convs]. split; [reflexivity|].
  clear C H. generalize (c_convs st) as m. induction convs as [|c l IH]; intros m n; cbn [fold_left find].
  - now destruct (sfind n m).
  - rewrite IH, sfind_insert. destruct (sfind n m); [reflexivity|]. destruct (String.eqb n (conv_name c)); reflexivity.
Qed.
(** The standard names of omega. *)
Theorem C73_omega_names s : is_omega s = true <->
  In s ["omega"; "lagrangian_tendency_of_air_pressure"; "vertical_air_velocity_expressed_as_tendency_of_pressure"].
Proof. unfold is_omega. rewrite !orb_true_iff, !String.eqb_eq. cbn. intuition congruence. Qed.
Local Open Scope R_scope.

(** If the name were still there: the unpacked temperature is the potential temperature times
    (p / 1000 hPa)^(R/cp) exactly when the variable has no offset or no scale factor (or at 1000 hPa). *)
Theorem C74_theta_value raw scale offset p : 0 < p ->
  exists f x, 0 < f /\ ln f = GAS_CONSTANT / MOLAR_MASS / 1004 * ln (p / 1000) /\ theta_value offset raw p = Some x /\
    (x * scale + offset = (raw * scale + offset) * f <-> offset = 0 \/ scale = 1 \/ f = 1).
Proof.
  intro Hp. exists (Rpower (p * (1 / 1000)) RCP), ((raw + offset) * Rpower (p * (1 / 1000)) RCP - offset).
  split; [apply exp_pos|]. split.
  { unfold Rpower. rewrite ln_exp. unfold RCP. do 2 f_equal. field. }
  split.
  { unfold theta_value, pow_rcp. destruct (Rlt_dec 0 (p * (1 / 1000))) as [_|N]; [reflexivity|]. exfalso. apply N. lra. }
  set (f := Rpower (p * (1 / 1000)) RCP).
  assert (E : ((raw + offset) * f - offset) * scale + offset - (raw * scale + offset) * f = offset * ((1 - f) * (1 - scale))) by ring.
  split.
  - intro H. assert (Z : offset * ((1 - f) * (1 - scale)) = 0) by lra.
    apply Rmult_integral in Z. destruct Z as [Z|Z]; [now left|]. apply Rmult_integral in Z. destruct Z; [right; right; lra|right; left; lra].
  - intros [H|[H|H]]; rewrite H in *; lra.
Qed.
(** Finding: the marker of missing values is converted like a value. *)
Theorem C74_theta_missing fill offset p x : 0 < p -> theta_value offset fill p = Some x ->
  (x = fill <-> fill = - offset \/ p = 1000).
Proof.
  intros Hp H. unfold theta_value, pow_rcp in H. destruct (Rlt_dec 0 (p * (1 / 1000))) as [L|N]; [|exfalso; apply N; lra].
  injection H as <-. set (f := Rpower (p * (1 / 1000)) RCP).
  assert (K : 0 < RCP) by (unfold RCP, GAS_CONSTANT, MOLAR_MASS; apply Rdiv_lt_0_compat; [apply Rdiv_lt_0_compat; lra|lra]).
  assert (F1 : f = 1 <-> p = 1000).
  { unfold f, Rpower. split.
    - intro E. apply (f_equal ln) in E. rewrite ln_exp, ln_1 in E. apply Rmult_integral in E. destruct E as [E|E]; [lra|].
      apply (f_equal exp) in E. rewrite exp_0 in E. rewrite exp_ln in E by exact L. lra.
    - intros ->. replace (1000 * (1 / 1000)) with 1 by lra. rewrite ln_1, Rmult_0_r, exp_0. reflexivity. }
  split.
  - intro E. assert (Z : (fill + offset) * (f - 1) = 0) by lra. apply Rmult_integral in Z. destruct Z as [Z|Z]; [left; lra|right].
    apply F1. lra.
  - intros [->|E]; [lra|]. apply F1 in E. rewrite E. lra.
Qed.

Lemma trunc_spec x : 0 <= x -> IZR (trunc x) <= x < IZR (trunc x) + 1 /\ (0 <= trunc x)%Z.
Proof.
  intro H. unfold trunc. destruct (Rle_dec 0 x); [|contradiction].
  destruct (base_Int_part x) as (A & B). split; [lra|].
  apply le_IZR. destruct (Z_lt_le_dec (Int_part x) 0) as [L|L]; [|now apply IZR_le].
  exfalso. assert (IZR (Int_part x) <= -1) by (apply IZR_le; lia). lra.
Qed.

(** Relative humidity with pressure in hPa: the stored number times 1/25000 is the saturation ratio up to half
    a unit, as long as it is below 1.3; *)
Definition saturation (sh t p_pa : R) : R := sh * p_pa / (0.622 * humidity_es t).
Lemma es_pos t : 0 < humidity_es t.
Proof. unfold humidity_es. apply Rmult_lt_0_compat; [lra|apply exp_pos]. Qed.
Lemma fraction sh t p : 0 <= sh -> 0 <= p -> saturation sh t (100 * p) <= 100 ->
  specific_to_relative sh t p = saturation sh t (100 * p) /\ 0 <= saturation sh t (100 * p).
Proof.
  intros Hs Hp Hc. pose proof (es_pos t) as E.
  assert (Q : 100 * sh * p / (humidity_es t * MOL_WEIGHT_RATIO) = saturation sh t (100 * p)).
  { unfold saturation, MOL_WEIGHT_RATIO. field. lra. }
  assert (0 <= saturation sh t (100 * p)).
  { unfold saturation. apply Rmult_le_pos; [nra|]. apply Rlt_le, Rinv_0_lt_compat. lra. }
  split; [|assumption]. unfold specific_to_relative. rewrite Q.
  destruct (Rlt_dec (saturation sh t (100 * p)) 0); [lra|]. destruct (Rlt_dec 100 (saturation sh t (100 * p))); [lra|reflexivity].
Qed.
Theorem C74_humidity_value sh t p : 0 <= sh -> 0 <= p -> saturation sh t (100 * p) <= 1.3 ->
  exists z, humidity_value sh t p = Ok z /\ (0 <= z <= 32767)%Z /\ Rabs (IZR z / 25000 - saturation sh t (100 * p)) <= 1 / 50000.
Proof.
  intros Hs Hp Hc. destruct (fraction sh t p Hs Hp) as (E & P); [lra|].
  unfold humidity_value, to_short. rewrite E. set (x := saturation sh t (100 * p)) in *.
  destruct (trunc_spec (25000 * x + 1 / 2)) as (T & Z0); [lra|]. set (z := trunc (25000 * x + 1 / 2)) in *.
  assert (Z1 : (z <= 32767)%Z) by (apply le_IZR; lra).
  destruct ((-32768 <=? z)%Z && (z <=? 32767)%Z) eqn:Q; [|lia].
  exists z. split; [reflexivity|]. split; [lia|]. apply Rabs_le. split; lra.
Qed.
(** Findings: values above saturation are not limited to one although the library function limits to 100 %,
    and beyond 131 % the number does not fit; a missing value is not defined either. *)
Theorem C74_humidity_overflow sh t p : 0 <= sh -> 0 <= p -> 1.3107 <= saturation sh t (100 * p) -> humidity_value sh t p = UB.
Proof.
  intros Hs Hp Hc. pose proof (es_pos t) as E.
  assert (Q : 1.3107 <= specific_to_relative sh t p).
  { destruct (Rle_dec (saturation sh t (100 * p)) 100) as [L|L].
    - rewrite (proj1 (fraction sh t p Hs Hp L)). exact Hc.
    - unfold specific_to_relative.
      replace (100 * sh * p / (humidity_es t * MOL_WEIGHT_RATIO)) with (saturation sh t (100 * p)) by (unfold saturation, MOL_WEIGHT_RATIO; field; lra).
      destruct (Rlt_dec (saturation sh t (100 * p)) 0); [lra|]. destruct (Rlt_dec 100 (saturation sh t (100 * p))); lra. }
  unfold humidity_value, to_short. set (x := specific_to_relative sh t p) in *.
  destruct (trunc_spec (25000 * x + 1 / 2)) as (T & Z0); [lra|]. set (z := trunc (25000 * x + 1 / 2)) in *.
  assert (Z1 : (32767 < z)%Z) by (apply lt_IZR; lra).
  destruct ((-32768 <=? z)%Z && (z <=? 32767)%Z) eqn:W; [lia|reflexivity].
Qed.
Theorem C74_humidity_missing : humidity_cell (None, (Some 280, Some 1000)) = UB.
Proof. reflexivity. Qed.

(** Vertical wind: with omega in hPa/s and pressure in hPa, w = - omega R T / (g M p); rising air has
    negative omega; a missing input gives a missing result; the number of values is kept. *)
Theorem C74_omega_slice src frames name cs om t p ts os :
  s_pressure src cs = Ok p -> s_scaled src t "K" = Ok ts -> s_scaled src om "hPa/s" = Ok os ->
  length ts = length p -> length os = length p ->
  exists l, convert src frames (Omega name cs om t) = Ok (Floats l) /\ length l = length p /\
    forall i, (i < length p)%nat ->
      nth_error l i = Some (match nth i os None, nth i p None, nth i ts None with
                            | Some o, Some p, Some t => Some (- o * (8.31432 * t) / (9.80665 * 0.0289644 * p))
                            | _, _, _ => None
                            end).
Proof.
  intros P T O LT LO. cbn [convert]. rewrite P, T, O. cbn [obind]. unfold check_size.
  rewrite LT, LO, Nat.eqb_refl. cbn [obind]. eexists. split; [reflexivity|].
  split; [rewrite map_length, !combine_length; lia|]. intros i Hi.
  assert (NN : forall (A : Type) (l : list (option A)), (i < length l)%nat -> nth_error l i = Some (nth i l None)) by (intros; now apply nth_error_nth').
  rewrite nth_error_map.
  assert (CC : forall (A B : Type) (l : list A) (m : list B) a b, nth_error l i = Some a -> nth_error m i = Some b -> nth_error (combine l m) i = Some (a, b)).
  { clear. induction i as [|i IH]; intros A B [|x l] [|y m] a b H1 H2; try discriminate; cbn in *; [congruence|]. now apply IH. }
  rewrite (CC _ _ os (combine p ts) (nth i os None) (nth i p None, nth i ts None)).
  - cbn [option_map]. f_equal. unfold omega_cell. destruct (nth i os None), (nth i p None) as [pi|], (nth i ts None); try reflexivity.
    f_equal. unfold BAROMETRIC_FACTOR, GAS_CONSTANT, GRAVITY, MOLAR_MASS. unfold Rdiv. rewrite (Rinv_mult (9.80665 * 0.0289644) pi). ring.
  - apply NN. lia.
  - apply CC; apply NN; lia.
Qed.

(** examples *)
Definition ex_att (n s : string) : cattr := text_attr n s.
Definition ex_in : cdm :=
  mkCdm [mkVar "theta" DFloat ["x"; "y"; "k"; "time"] "" None; mkVar "q" DFloat ["x"; "y"; "k"; "time"] "" None]
        [mkDim "x" 3 false; mkDim "y" 3 false; mkDim "k" 10 false; mkDim "time" 2 true]
        [("q", [ex_att "standard_name" "specific_humidity"]); ("theta", [ex_att "standard_name" "air_potential_temperature"; ex_att "units" "K"])].
Definition ex_cs : csys := {| cs_complete := fun n => String.eqb n "theta" || String.eqb n "q"; cs_x := Some ["x"]; cs_y := Some ["y"];
  cs_z := Some ["k"]; cs_t := Some ["time"]; cs_trans := Some (VConv ["x"; "y"; "k"; "time"]) |}.
Example C73_nonvacuous : exists st, construct ex_in [ex_cs] true [s_ "theta2T;air_temperature=T"; s_ "add4Dpressure"] = Ok st /\
  vnames (c_out st) = ["q"; "T"; "air_pressure4D"] /\ attrs_of (c_out st) "T" = [ex_att "units" "K"; ex_att "standard_name" "air_temperature"] /\
  skeys (c_convs st) = ["T"; "air_pressure4D"].
Proof.
  assert (H : match construct ex_in [ex_cs] true [s_ "theta2T;air_temperature=T"; s_ "add4Dpressure"] with
              | Ok st => (vnames (c_out st), attrs_of (c_out st) "T", skeys (c_convs st)) =
                         (["q"; "T"; "air_pressure4D"], [ex_att "units" "K"; ex_att "standard_name" "air_temperature"], ["T"; "air_pressure4D"])
              | _ => False
              end) by (vm_compute; reflexivity).
  destruct (construct ex_in [ex_cs] true [s_ "theta2T;air_temperature=T"; s_ "add4Dpressure"]) as [st| | |]; try contradiction.
  exists st. injection H as H1 H2 H3. repeat split; assumption.
Qed.
Example C74_nonvacuous : exists z, humidity_value 0.003 273.16 1000 = Ok z.
Proof.
  destruct (C74_humidity_value 0.003 273.16 1000) as (z & E & _); [lra|lra| |eauto].
  unfold saturation, humidity_es. replace (273.16 - 273.16) with 0 by ring. unfold Rdiv at 2. rewrite Rmult_0_r, Rmult_0_l, exp_0. lra.
Qed.

(** Without pressure the temperature is zero; for a negative pressure there is none. *)
Theorem C74_theta_no_pressure raw offset p :
  theta_value offset raw 0 = Some (- offset) /\ (p < 0 -> theta_value offset raw p = None).
Proof.
  unfold theta_value, pow_rcp. split.
  - rewrite Rmult_0_l. destruct (Rlt_dec 0 0) as [L|_]; [lra|]. destruct (Req_EM_T 0 0) as [_|N]; [|lra]. f_equal. ring.
  - intro H. destruct (Rlt_dec 0 (p * (1 / 1000))); [lra|]. destruct (Req_EM_T (p * (1 / 1000)) 0); [lra|reflexivity].
Qed.
(** A slice of relative humidity: cell by cell from specific humidity, temperature and pressure of the cell. *)
Theorem C74_humidity_slice src frames name cs sp t p shs ts : (* all three slices of one size, all cells representable *)
  s_pressure src cs = Ok p -> s_scaled src sp "1" = Ok shs -> s_scaled src t "K" = Ok ts ->
  length shs = length p -> length ts = length p ->
  (forall i, (i < length p)%nat -> exists sh tt pp, nth_error shs i = Some (Some sh) /\ nth_error ts i = Some (Some tt) /\ nth_error p i = Some (Some pp) /\
     exists z, humidity_value sh tt pp = Ok z) ->
  exists l, convert src frames (Humidity name cs sp t) = Ok (Shorts l) /\ length l = length p /\
    forall i sh tt pp, nth_error shs i = Some (Some sh) -> nth_error ts i = Some (Some tt) -> nth_error p i = Some (Some pp) ->
      exists z, nth_error l i = Some z /\ humidity_value sh tt pp = Ok z.
Proof.
  intros P S T LS LT H. cbn [convert]. rewrite P, S, T. cbn [obind]. unfold check_size. rewrite LS, LT, Nat.eqb_refl. cbn [obind].
  assert (G : forall shs ts p : floats, length shs = length p -> length ts = length p ->
    (forall i, (i < length p)%nat -> exists sh tt pp, nth_error shs i = Some (Some sh) /\ nth_error ts i = Some (Some tt) /\ nth_error p i = Some (Some pp) /\
       exists z, humidity_value sh tt pp = Ok z) ->
    exists l, omapM humidity_cell (combine shs (combine ts p)) = Ok l /\ length l = length p /\
      forall i sh tt pp, nth_error shs i = Some (Some sh) -> nth_error ts i = Some (Some tt) -> nth_error p i = Some (Some pp) ->
        exists z, nth_error l i = Some z /\ humidity_value sh tt pp = Ok z).
  { clear. induction shs as [|s shs IH]; intros [|t ts] [|p ps] L1 L2 H; try discriminate.
    - exists []. split; [reflexivity|]. split; [reflexivity|]. intros [|i]; discriminate.
    - destruct (H 0%nat) as (sh & tt & pp & E1 & E2 & E3 & z & Z); [cbn; lia|]. cbn in E1, E2, E3. injection E1 as ->. injection E2 as ->. injection E3 as ->.
      destruct (IH ts ps) as (l & E & L & V); [cbn in L1; lia|cbn in L2; lia| |].
      { intros i I. destruct (H (S i)) as (a & b & c & X); [cbn; lia|]. now exists a, b, c. }
      cbn [combine omapM]. unfold humidity_cell at 1. rewrite Z. cbn [obind]. rewrite E. cbn [obind]. exists (z :: l). split; [reflexivity|].
      split; [cbn; lia|]. intros [|i] a b c A B C; cbn in *.
      + injection A as <-. injection B as <-. injection C as <-. now exists z.
      + now apply (V i a b c). }
  destruct (G shs ts p LS LT H) as (l & E & L & V). exists l. rewrite E. cbn [obind]. split; [reflexivity|]. now split.
Qed.
Print Assumptions C73_parse_total.
Print Assumptions C73_parse.
Print Assumptions C73_parse_flag.
Print Assumptions C73_flag_swallows.
Print Assumptions C73_unknown.
Print Assumptions C73_candidates.
Print Assumptions C73_theta.
Print Assumptions C73_theta_nothing.
Print Assumptions C73_humidity.
Print Assumptions C73_humidity_second_temperature.
Print Assumptions C73_omega.
Print Assumptions C73_pressure.
Print Assumptions C73_pressure_none.
Print Assumptions C73_pressure_exception.
Print Assumptions C74_passed_on.
Print Assumptions C74_theta_dangling.
Print Assumptions C74_theta_value.
Print Assumptions C74_theta_missing.
Print Assumptions C74_humidity_value.
Print Assumptions C74_humidity_overflow.
Print Assumptions C74_humidity_missing.
Print Assumptions C74_omega_slice.
Print Assumptions C73_step.
Print Assumptions C73_omega_names.
Print Assumptions C74_theta_no_pressure.
Print Assumptions C74_humidity_slice.
