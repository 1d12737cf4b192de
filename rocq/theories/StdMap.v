(** [std::map<std::string, T>] as a sorted association list; iteration order is key order. *)
From Coq Require Import List String OrdersEx Bool Lia Sorting.Sorted RelationClasses.
From Verif Require Import Base.
Import ListNotations.

Definition slt (a b : string) : Prop := String.compare a b = Lt.

Definition smap (A : Type) := list (string * A).

(** [map.find(k)] *)
Fixpoint sfind {A} (k : string) (m : smap A) : option A :=
  match m with
  | [] => None
  | (k', v) :: m' => if String.eqb k k' then Some v else sfind k m'
  end.

(** [map\[k\] = v] (inserts or overwrites) *)
Fixpoint sput {A} (k : string) (v : A) (m : smap A) : smap A :=
  match m with
  | [] => [(k, v)]
  | (k', v') :: m' =>
      match String.compare k k' with
      | Lt => (k, v) :: m
      | Eq => (k, v) :: m'
      | Gt => (k', v') :: sput k v m'
      end
  end.

(** [map.erase(k)] *)
Definition serase {A} (k : string) (m : smap A) : smap A :=
  filter (fun e => negb (String.eqb k (fst e))) m.

Definition smem {A} (k : string) (m : smap A) : bool :=
  match sfind k m with Some _ => true | None => false end.

Definition skeys {A} (m : smap A) : list string := map fst m.

Definition ssorted {A} (m : smap A) : Prop := StronglySorted slt (skeys m).

Lemma slt_irrefl a : ~ slt a a.
Proof. apply (StrictOrder_Irreflexive (R := String_as_OT.lt)). Qed.

Lemma slt_trans a b c : slt a b -> slt b c -> slt a c.
Proof. apply (StrictOrder_Transitive (R := String_as_OT.lt)). Qed.

Lemma compare_eq a b : String.compare a b = Eq <-> a = b.
Proof.
  split; [apply String.compare_eq_iff|]. intros ->.
  destruct (String.compare b b) eqn:E; auto; exfalso.
  - exact (slt_irrefl b E).
  - rewrite String.compare_antisym in E. destruct (String.compare b b) eqn:E2; cbn in E; try discriminate.
    exact (slt_irrefl b E2).
Qed.

Lemma sfind_sput {A} k v (m : smap A) k' :
  sfind k' (sput k v m) = if String.eqb k' k then Some v else sfind k' m.
Proof.
  induction m as [|[k0 v0] m IH]; cbn; auto.
  destruct (String.compare k k0) eqn:E; cbn.
  - apply compare_eq in E as ->. destruct (String.eqb k' k0); reflexivity.
  - reflexivity.
  - rewrite IH. destruct (String.eqb_spec k' k0) as [->|N].
    + destruct (String.eqb_spec k0 k) as [->|]; auto.
      rewrite (proj2 (compare_eq k k) eq_refl) in E; discriminate.
    + reflexivity.
Qed.

Lemma sfind_serase {A} k (m : smap A) k' :
  sfind k' (serase k m) = if String.eqb k' k then None else sfind k' m.
Proof.
  unfold serase; induction m as [|[k0 v0] m IH]; cbn.
  - destruct (String.eqb k' k); reflexivity.
  - destruct (String.eqb_spec k k0) as [->|N]; cbn.
    + rewrite IH. destruct (String.eqb_spec k' k0); auto.
    + rewrite IH. destruct (String.eqb_spec k' k0) as [->|]; auto.
      destruct (String.eqb_spec k0 k); congruence.
Qed.

Lemma sfind_In {A} k (m : smap A) : In k (skeys m) <-> exists v, sfind k m = Some v.
Proof.
  induction m as [|[k0 v0] m IH]; cbn.
  - split; [tauto|]. intros [v H]; discriminate.
  - destruct (String.eqb_spec k k0) as [->|N].
    + split; eauto.
    + rewrite <- IH. split; [intros [->|]; tauto|tauto].
Qed.

Lemma In_sput {A} k v (m : smap A) k' : In k' (skeys (sput k v m)) <-> k' = k \/ In k' (skeys m).
Proof.
  rewrite !sfind_In, sfind_sput. destruct (String.eqb_spec k' k) as [->|N].
  - split; eauto.
  - split; [tauto|]. intros [->|]; tauto.
Qed.

Lemma sput_sorted {A} k v (m : smap A) : ssorted m -> ssorted (sput k v m).
Proof.
  unfold ssorted. induction m as [|[k0 v0] m IH]; cbn; intro H.
  - repeat constructor.
  - inversion H as [|? ? Hs Hf]; subst.
    destruct (String.compare k k0) eqn:E; cbn.
    + apply compare_eq in E as ->. constructor; auto.
    + constructor; auto. constructor; auto.
      eapply Forall_impl; [|exact Hf]. intros a Ha. eapply slt_trans; eauto.
    + constructor; auto. apply Forall_forall. intros x Hx.
      apply In_sput in Hx as [->|Hx].
      * unfold slt. rewrite String.compare_antisym, E. reflexivity.
      * rewrite Forall_forall in Hf; auto.
Qed.

Lemma serase_sorted {A} k (m : smap A) : ssorted m -> ssorted (serase k m).
Proof.
  unfold ssorted, serase. induction m as [|[k0 v0] m IH]; cbn; intro H; auto.
  inversion H as [|? ? Hs Hf]; subst.
  destruct (negb (String.eqb k k0)); cbn; auto.
  constructor; auto. apply Forall_forall. intros x Hx.
  apply in_map_iff in Hx as ([k1 v1] & <- & Hx). apply filter_In in Hx as [Hx _].
  rewrite Forall_forall in Hf. apply Hf. apply in_map_iff. exists (k1, v1); auto.
Qed.

Lemma ssorted_NoDup {A} (m : smap A) : ssorted m -> NoDup (skeys m).
Proof.
  unfold ssorted. induction (skeys m) as [|k l IH]; intro H; constructor.
  - inversion H as [|? ? Hs Hf]; subst. rewrite Forall_forall in Hf.
    intro Hin. exact (slt_irrefl k (Hf k Hin)).
  - inversion H; auto.
Qed.
