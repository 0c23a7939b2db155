(* Specification vocabulary for members that are not initialised. *)
From Coq Require Import ZArith List Bool.
From Verif Require Import Base Maps Nodes.
Open Scope Z_scope.

(* The result without the value of error_delay *)
Definition plain {A} (r : res (Z * A)) : res A := bind r (fun p => Ok (snd p)).

(* a is the address of nothing that is allocated or will be *)
Definition stale (a : Z) (h : heap) : Prop := has Z.eqb a (live h) = false /\ a < top h.
