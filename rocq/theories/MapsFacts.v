(* Laws of the finite maps. *)
From Coq Require Import ZArith List Bool String.
From Verif Require Import Maps.
Import ListNotations.

Section Laws.
Context {K V : Type}.
Variable eqb : K -> K -> bool.
Hypothesis eqb_ok : forall x y, eqb x y = true <-> x = y.

Lemma eqb_same : forall x, eqb x x = true.
Proof. intros. apply eqb_ok. reflexivity. Qed.

Lemma eqb_other : forall x y, x <> y -> eqb x y = false.
Proof. intros x y N. destruct (eqb x y) eqn:E; [|reflexivity]. apply eqb_ok in E. contradiction. Qed.

Lemma lookup_unset_same : forall k (m : list (K * V)), lookup eqb k (unset eqb k m) = None.
Proof.
  induction m as [|[k' v] m IH]; simpl; [reflexivity|].
  destruct (eqb k k') eqn:E; simpl; [assumption|]. rewrite E. assumption.
Qed.

Lemma lookup_unset_other : forall k k' (m : list (K * V)), k <> k' ->
  lookup eqb k (unset eqb k' m) = lookup eqb k m.
Proof.
  induction m as [|[k1 v] m IH]; simpl; intros N; [reflexivity|].
  destruct (eqb k' k1) eqn:E; simpl.
  - apply eqb_ok in E. subst k1. rewrite eqb_other by assumption. auto.
  - destruct (eqb k k1); auto.
Qed.

Lemma lookup_set_same : forall k v (m : list (K * V)), lookup eqb k (set eqb k v m) = Some v.
Proof. intros. simpl. rewrite eqb_same. reflexivity. Qed.

Lemma lookup_set_other : forall k k' v (m : list (K * V)), k <> k' ->
  lookup eqb k (set eqb k' v m) = lookup eqb k m.
Proof. intros. simpl. rewrite eqb_other by assumption. apply lookup_unset_other. assumption. Qed.

Lemma has_iff : forall k (m : list (K * V)), has eqb k m = true <-> exists v, lookup eqb k m = Some v.
Proof.
  intros. unfold has. destruct (lookup eqb k m); split; intros H; try discriminate; eauto.
  destruct H; discriminate.
Qed.

Lemma lookup_in : forall k v (m : list (K * V)), lookup eqb k m = Some v -> In (k, v) m.
Proof.
  induction m as [|[k' v'] m IH]; simpl; intros H; [discriminate|].
  destruct (eqb k k') eqn:E; [|auto]. apply eqb_ok in E. inversion H. subst. auto.
Qed.

Lemma in_lookup : forall k v (m : list (K * V)), NoDup (map fst m) -> In (k, v) m -> lookup eqb k m = Some v.
Proof.
  induction m as [|[k' v'] m IH]; simpl; intros N H; [contradiction|]. inversion N; subst.
  destruct H as [H|H].
  - inversion H; subst. rewrite eqb_same. reflexivity.
  - rewrite eqb_other; [auto|]. intros ->. apply H2. apply (in_map fst) in H. assumption.
Qed.

Lemma unset_keys : forall k (m : list (K * V)), NoDup (map fst m) -> NoDup (map fst (unset eqb k m)).
Proof.
  induction m as [|[k' v] m IH]; simpl; intros N; [constructor|]. inversion N; subst.
  destruct (eqb k k'); simpl; [auto|]. constructor; [|auto].
  intros H. apply in_map_iff in H. destruct H as ([k2 v2] & E & H). simpl in E. subst k2.
  apply filter_In in H. destruct H as (H & _). apply H1. apply (in_map fst) in H. assumption.
Qed.

Lemma set_keys : forall k v (m : list (K * V)), NoDup (map fst m) -> NoDup (map fst (set eqb k v m)).
Proof.
  intros k v m N. simpl. constructor; [|apply unset_keys; assumption].
  intros H. apply in_map_iff in H. destruct H as ([k2 v2] & E & H). simpl in E. subst k2.
  apply filter_In in H. destruct H as (_ & H). simpl in H. rewrite eqb_same in H. discriminate.
Qed.

Lemma lookup_none_empty : forall (m : list (K * V)), (forall k, lookup eqb k m = None) -> m = [].
Proof.
  intros [|[k v] m] H; [reflexivity|]. specialize (H k). simpl in H. rewrite eqb_same in H. discriminate.
Qed.
End Laws.
