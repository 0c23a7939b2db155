(* An instance for the copulas that make sets. *)
From Coq Require Import ZArith List Bool String Permutation.
From Verif Require Import Base Hash Enums Term TermSpec TermFacts Compound CompoundSpec Parser Actions ActionsSpec
  ActionsCases CopulaSpec.
Import ListNotations.
Local Open Scope string_scope.
Local Open Scope Z_scope.
Local Open Scope list_scope.

(* A conjunction of two atoms as the subject of an instance copula. *)
Definition two : term := Comp Conjunction [Atom false 4160; Atom false 4224].

Lemma wrapped_case : into_set ExtensionalSet two (Comp ExtensionalSet [Atom false 4160; Atom false 4224]) /\
  into_set ExtensionalSet (Atom false 4160) (Comp ExtensionalSet [Atom false 4160]) /\
  into_set ExtensionalSet (Comp ExtensionalSet [Atom false 4160; Atom false 4224])
    (Comp ExtensionalSet [Atom false 4160; Atom false 4224]) /\
  exists st1, transform id_ord bump blank_state (Node "compound_term" [Node "multi_prefix" [Node "con_conjunction" [];
      Node "atom_term" [Leaf "string_raw" "a"]; Node "atom_term" [Leaf "string_raw" "b"]]]) = Ok (st1, VTerm two).
Proof.
  split; [|split; [|split]].
  - right; left. exists Conjunction, [Atom false 4160; Atom false 4224].
    split; [reflexivity|]. split; [constructor|]. split; [discriminate|]. split.
    + repeat constructor; vm_compute; reflexivity.
    + split; [|reflexivity]. repeat constructor; intros k i H; inversion H.
  - left. split; [|reflexivity]. intros (c & l & E & _). discriminate E.
  - right; right. exists [Atom false 4160; Atom false 4224]. split; [reflexivity|]. split; [|reflexivity].
    assert (N : forall a, ~ set_compound (Atom false a)) by (intros a (c & l & E & _); discriminate E).
    apply tidy_comp; [constructor| |repeat constructor; apply N|left; cbn; repeat constructor].
    split.
    + repeat constructor; vm_compute; reflexivity.
    + repeat constructor; intros k i H; inversion H.
    + intros l' [E|[E|[]]]; discriminate E.
    + left. cbn. repeat constructor.
    + intros [E|E]; discriminate E.
  - destruct dissolved as (st1 & _ & H & _). exists st1. exact H.
Qed.
