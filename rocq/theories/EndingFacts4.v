(* Null pointers in the table at the end, and names asked for after it. *)
From Coq Require Import ZArith List Bool String.
From Verif Require Import Base Maps Interning Ending.
Import ListNotations.
Local Open Scope Z_scope.

Lemma sweep_null : forall l w, In 0 (map snd l) -> sweep l w = UB.
Proof.
  induction l as [|[k p] l IH]; intros w H; [destruct H|]. cbn [sweep].
  destruct (Z.eqb_spec p 0) as [->|N]; [reflexivity|].
  destruct H as [H|H]; [contradiction|].
  destruct (lookup Z.eqb p (held w)) as [a|]; [|reflexivity]. apply IH. exact H.
Qed.

Lemma finish_null : forall w, In 0 (map snd (objs (tab w))) -> finish_table w = UB.
Proof. intros w H. unfold finish_table, reset_world. rewrite (sweep_null _ _ H). reflexivity. Qed.

Lemma null_by_asking : forall w k, lookup Z.eqb k (objs (tab w)) = None ->
  finish_table (with_tab w (snd (get_object (tab w) k))) = UB.
Proof.
  intros w k E. apply finish_null. unfold get_object. rewrite E. cbn. left. reflexivity.
Qed.

Lemma no_late_names : forall xs w w' n a, In (Create n a) xs \/ In (ParseOp n a) xs -> late_all w xs <> Ok w'.
Proof.
  induction xs as [|x xs IH]; intros w w' n a H; [destruct H as [[]|[]]|]. cbn [late_all].
  destruct H as [[->|H]|[->|H]]; cbn [late_act bind]; try discriminate;
    destruct (late_act w x) as [w1| | |]; cbn [bind]; try discriminate; apply (IH _ _ n a); auto.
Qed.
