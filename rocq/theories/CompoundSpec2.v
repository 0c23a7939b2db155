(* Specification vocabulary for the definedness of compounds. *)
From Coq Require Import List.
From Verif Require Import Base Enums Term CompoundSpec.
Import ListNotations.

(* Every set-like compound met when descending through set-like compounds has
   a component, and two unless it is a set.  The components may be in any
   order, repeated and nested. *)
Inductive solid : term -> Prop :=
| solid_other t : ~ set_compound t -> solid t
| solid_comp c l : set_like c -> Forall solid l -> l <> [] ->
    (2 <= length l)%nat \/ c = ExtensionalSet \/ c = IntensionalSet ->
    solid (Comp c l).
