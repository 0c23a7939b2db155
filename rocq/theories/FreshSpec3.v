(* Specification vocabulary for what is left of an input. *)
From Coq Require Import Ascii List.
Import ListNotations.

(* l' is l without some of its characters. *)
Inductive remains : list ascii -> list ascii -> Prop :=
  | R_none : remains [] []
  | R_kept c l l' : remains l l' -> remains (c :: l) (c :: l')
  | R_gone c l l' : remains l l' -> remains (c :: l) l'.
