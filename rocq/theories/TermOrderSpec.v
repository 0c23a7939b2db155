(* Specification vocabulary for the order of terms with variables. *)
From Coq Require Import ZArith List Bool.
From Verif Require Import Base Hash Enums Term TermSpec.
Import ListNotations.
Local Open Scope Z_scope.

(* The terms are equal up to the indices of variables, and no index of the
   first is above the one in the same place of the second. *)
Inductive below : term -> term -> Prop :=
| bel_atom op a : below (Atom op a) (Atom op a)
| bel_var k i j : i <= j -> below (Var k i) (Var k j)
| bel_itv n : below (Itv n) (Itv n)
| bel_stmt c s s' p p' :
    below s s' -> below p p' -> below (Stmt c s p) (Stmt c s' p')
| bel_comp c l l' : Forall2 below l l' -> below (Comp c l) (Comp c l').

(* All variables of the term have the same index. *)
Definition one_index (t : term) : Prop :=
  forall k i k' i', occurs (Var k i) t -> occurs (Var k' i') t -> i = i'.

(* Read from the left, the two terms agree up to a place with the variables
   [Var k i] and [Var k j], and only independent variables come before it. *)
Definition parted (t1 t2 : term) (k : vkind) (i j : Z) : Prop :=
  exists before rest1 rest2,
    leaves t1 = before ++ Var k i :: rest1 /\ leaves t2 = before ++ Var k j :: rest2
    /\ forall k' n, In (Var k' n) before -> k' = Independent.
