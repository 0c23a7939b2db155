(* Instances for the order and equality of terms with variables and for the
   symbol table. *)
From Coq Require Import ZArith List Bool String Lia.
From Verif Require Import Base Hash Enums Term TermSpec TermFacts TermCases TermOrderSpec.
Import ListNotations.
Local Open Scope Z_scope.

(* Statements ($i --> A). *)
Definition is_a (t : term) : Prop := exists i, t = Stmt Inheritance (Var Independent i) A.

Lemma is_a_ok :
  (forall t, is_a t -> one_index t) /\
  (forall t1 t2, is_a t1 -> is_a t2 -> ~ var_free t1 -> ~ var_free t2 ->
     thash t1 = thash t2 -> renaming t1 t2) /\
  is_a (Stmt Inheritance (Var Independent 7) A) /\
  tlt (Stmt Inheritance (Var Independent 3) A) (Stmt Inheritance (Var Independent 7) A) = true.
Proof.
  split; [|split; [|split]].
  - intros t (n & ->) k i k' i' H H'.
    inversion H; subst; try (match goal with Q : occurs _ A |- _ => inversion Q end);
      inversion H'; subst; try (match goal with Q : occurs _ A |- _ => inversion Q end).
    repeat match goal with Q : occurs (Var _ _) (Var _ _) |- _ => inversion Q; subst; clear Q end. reflexivity.
  - intros t1 t2 (n & ->) (m & ->) _ _ _. repeat constructor.
  - exists 7. reflexivity.
  - vm_compute. reflexivity.
Qed.

Lemma below_case : below (sp 0 1) (sp 0 2) /\ ~ below (sp 0 1) (sp 1 0) /\ renaming (sp 0 1) (sp 1 0).
Proof.
  split; [repeat constructor; lia|]. split; [|repeat constructor].
  intro H. inversion H; subst. match goal with Q : below (Var _ 1) _ |- _ => inversion Q; subst end. lia.
Qed.

Lemma parted_case :
  parted (Comp Product [Var Independent 2; Var Dependent 1]) (Comp Product [Var Independent 2; Var Dependent 5])
    Dependent 1 5 /\
  renaming (Comp Product [Var Independent 2; Var Dependent 1]) (Comp Product [Var Independent 2; Var Dependent 5]).
Proof.
  split; [|repeat constructor].
  exists [Var Independent 2], [], []. split; [reflexivity|]. split; [reflexivity|].
  intros k n [E|[]]. congruence.
Qed.
