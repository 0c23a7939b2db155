(* Notions used to state what is found under the addresses of literals. *)
From Coq Require Import ZArith String Ascii List Bool.
From Verif Require Import Base Tables Actions Dispatch.
From Verif Require Parser.
Import ListNotations.
Open Scope string_scope.
Open Scope list_scope.

Section Names.
(* The names registered, in order. *)
Variable names : list string.

(* What the literal at a spot says. *)
Definition says (s : spot) : option string :=
  match s with
  | InSymbols i => option_map fst (nth_error symbols i)
  | InProductions i => option_map (fun r => fst (fst r)) (nth_error productions i)
  | InRegistration i => nth_error names i
  | InGenerator => Some ""
  end.

(* What the language allows: literals that say different things begin at
   different addresses; whether equal ones share memory is left open. *)
Definition legal (pl : placement) : Prop := forall a b s t,
  says a = Some s -> says b = Some t -> pl a = pl b -> s = t.

(* Equal literals share memory. *)
Definition merged (pl : placement) : Prop := forall a b s,
  says a = Some s -> says b = Some s -> pl a = pl b.

(* No two literals share memory. *)
Definition separate (pl : placement) : Prop := forall a b, pl a = pl b -> a = b.
End Names.

(* The tree as it is in memory: every leaf has the name of a symbol, every
   inner node that of a production, by address. *)
Inductive copy (pl : placement) : Parser.ast -> ptree -> Prop :=
  | C_leaf i e g token :
      nth_error symbols i = Some (e, g) ->
      copy pl (Parser.Leaf e token) (PLeaf (pl (InSymbols i)) token)
  | C_node i e n lhs kids kids' :
      nth_error productions i = Some (e, n, lhs) ->
      Forall2 (copy pl) kids kids' ->
      copy pl (Parser.Node e kids) (PNode (pl (InProductions i)) kids').

(* The nodes of a tree and the addresses they have, side by side. *)
Inductive named (pl : placement) : string -> Z -> Prop :=
  | N_symbol i e g : nth_error symbols i = Some (e, g) -> named pl e (pl (InSymbols i))
  | N_production i e n lhs : nth_error productions i = Some (e, n, lhs) -> named pl e (pl (InProductions i)).
