(* Vocabulary for how deep terms are nested. *)
From Coq Require Import ZArith String Ascii List Bool.
From Verif Require Import Base Enums Term Actions.
From Verif Require Parser Interning Compound.
Import ListNotations.

(* t has, k levels below it, a term. *)
Inductive reaches_down : term -> nat -> Prop :=
  | rd_here t : reaches_down t 0
  | rd_subject c s p k : reaches_down s k -> reaches_down (Stmt c s p) (S k)
  | rd_predicate c s p k : reaches_down p k -> reaches_down (Stmt c s p) (S k)
  | rd_component c l x k : In x l -> reaches_down x k -> reaches_down (Comp c l) (S k).

(* The term in a result *)
Definition term_in (v : value) : option term :=
  match v with
  | VTerm t => Some t
  | VSentence s => Some (content s)
  | VTask t => Some (content (sentence_of t))
  | _ => None
  end.

Section Readings.
Variable ord : list (option connector * list term) -> list (option connector * list term).
Variable fresh : Interning.world -> Z.
Variable room : option nat.

(* What a new parser gets to by reading inputs, whatever is in the buffer and
   in the symbol table. *)
Inductive after_reading : state -> Prop :=
  | ar_new st : pending st = [] -> after_reading st
  | ar_read st left input st' left' v thrown : after_reading st ->
      parse_task ord fresh room st left input = Ok (st', left', v, thrown) -> after_reading st'.
End Readings.
