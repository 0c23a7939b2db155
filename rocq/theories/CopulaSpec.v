(* Vocabulary for the copulas {--, --] and {-]. *)
From Coq Require Import ZArith List Bool.
From Verif Require Import Base Enums Term TermSpec CompoundSpec.
Import ListNotations.

(* What becomes of a subject or predicate t that is put into a set: the set of
   t alone, but if t is a compound of unordered components with another
   connector, the set of these components, and if t is a normal set of that
   kind already, t itself. *)
Definition into_set (st : connector) (t u : term) : Prop :=
  (~ set_compound t /\ u = Comp st [t])
  \/ (exists c l, t = Comp c l /\ set_like c /\ c <> st /\ ascending l /\ Forall var_free l /\ u = Comp st l)
  \/ (exists l, t = Comp st l /\ tidy t /\ u = t).

(* The copula of the statement that is built. *)
Definition unsugared (c : copula) : copula :=
  match c with Instance | Property | InstanceProperty => Inheritance | _ => c end.
