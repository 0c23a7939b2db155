(* How deep the two recursions over a syntax tree go: the calls that are
   active at the same time. *)
From Coq Require Import String List.
From Verif Require Import Parser.
Import ListNotations.

(* Parser.cpp lines 66-110: transform runs over a chain of siblings in a loop
   and calls itself on the first child of every node that is not a leaf
   (line 94), also when there is no child.  What is counted for one node are
   the calls active at once below the call that works off its chain. *)
Fixpoint below (n : ast) : nat :=
  match n with
  | Leaf _ _ => 0
  | Node _ children => S (list_max (map below children))
  end.

(* Parser.cpp lines 40 and 57, the call on the whole tree: the call itself and what is
   below it.  A call with a null pointer returns at once (lines 72-73). *)
Definition transform_calls (chain : list ast) : nat := S (list_max (map below chain)).

(* narsese.cpp lines 46-60: ast_free calls itself on the child of a node
   (line 51) and then on its next sibling (line 52).  siblings are the calls
   active at once in the call on the next sibling, and a call with a null
   pointer returns at once (lines 48-49). *)
Fixpoint free_node (n : ast) (siblings : nat) : nat :=
  match n with
  | Leaf _ _ => S (Nat.max 1 siblings)
  | Node _ children => S (Nat.max (fold_right free_node 1 children) siblings)
  end.

(* Parser.cpp lines 41 and 58: the call on the whole tree. *)
Definition free_calls (chain : list ast) : nat := fold_right free_node 1 chain.
