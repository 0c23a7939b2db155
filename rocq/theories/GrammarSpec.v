(* Notions used to state which texts the parser accepts. *)
From Coq Require Import ZArith String Ascii List Bool.
From Verif Require Import Parser Grammar.
Import ListNotations.
Open Scope Z_scope.

(* The terminals of a tree with their texts, from left to right. *)
Fixpoint tokens (t : tree) : list (Z * list ascii) :=
  match t with
  | Token sym txt => [(sym, txt)]
  | Derived _ kids => concat (map tokens kids)
  end.

(* u is t or a part of it. *)
Inductive part (u : tree) : tree -> Prop :=
  | P_whole : part u u
  | P_kid r kids t : In t kids -> part u t -> part u (Derived r kids).

(* The grammar is ambiguous in two places.  A sentence about a statement can
   take it as a statement (productions 5, 14, 20, 29) or as a term that is a
   statement (4, 13, 19, 28 with 66).  A list that starts with an operator can
   be an operation (37) or a product (107 with 62 and 67). *)
Definition overlap (t : tree) : Prop :=
  (exists r kids, In r [4; 13; 19; 28]%nat /\ t = Derived r [Derived 66 kids])
  \/ (exists p kids more, t = Derived 107 (p :: Derived 62 [Derived 67 kids] :: more)).

(* The tree takes the first way in both places. *)
Definition preferred (t : tree) : Prop := forall u, part u t -> ~ overlap u.

(* Every blank is a space. *)
Definition spaced (toks : list (Z * list ascii)) : Prop := forall w, In (58, w) toks -> w = [" "%char].
