(* Specification vocabulary for the memory of the syntax tree. *)
From Coq Require Import ZArith String Ascii List Bool Permutation.
From Verif Require Import Base Maps Parser Nodes.
Import ListNotations.
Open Scope string_scope.
Open Scope list_scope.
Open Scope Z_scope.

(* A memory in which every block has its own address, below those to come. *)
Definition sound (h : heap) : Prop :=
  NoDup (map fst (live h)) /\ forall a b, In (a, b) (live h) -> a < top h.

(* p points to the first of a list of trees that is linked in both directions,
   in exactly the given blocks; before is what the first one has in prev.  A
   leaf has a text of its own and no children. *)
Inductive nodes_at : ptr -> ptr -> list ast -> list (Z * block) -> Prop :=
  | N_none before : nodes_at before None [] []
  | N_leaf before a t e s q trees l :
      nodes_at (Some a) q trees l ->
      nodes_at before (Some a) (Leaf e s :: trees)
        ((a, BNode (Nd e (Some t) None before q)) :: (t, BText s) :: l)
  | N_node before a e c kids k q trees l :
      nodes_at None c kids k -> nodes_at (Some a) q trees l ->
      nodes_at before (Some a) (Node e kids :: trees)
        ((a, BNode (Nd e None c before q)) :: k ++ l).

(* What the pointers of the parse stack stand for *)
Inductive cells_at : list (list ast) -> list (Z * block) -> Prop :=
  | C_none : cells_at [] []
  | C_cell p trees k cells l :
      nodes_at None p trees k -> cells_at cells l -> cells_at (trees :: cells) (k ++ l).

(* Reading inputs one after the other with the same parser. *)
Fixpoint preads (room : option nat) (kept : list ascii) (inputs : list string)
  : M (list outcome * list ascii) :=
  match inputs with
  | [] => ret ([], kept)
  | s :: inputs' =>
      mbind (pread room kept s) (fun r =>
      mbind (preads room (snd r) inputs') (fun q =>
      ret (fst r :: fst q, snd q)))
  end.

(* How many blocks a tree takes. *)
Fixpoint blocks_of (t : ast) : nat :=
  match t with
  | Leaf _ _ => 2
  | Node _ kids => S (list_sum (map blocks_of kids))
  end.
