(* Notions used to state properties of the parser. *)
From Coq Require Import ZArith String Ascii List.
From Verif Require Import Base Tables Parser.
Import ListNotations.
Open Scope Z_scope.

(* The configurations the parser goes through on an input. *)
Inductive reached (room : option nat) (left : list ascii) (input : string) : config -> Prop :=
  | R_start : reached room left input (start room left input)
  | R_step c c' : reached room left input c -> step c = Ok (inl c') ->
      reached room left input c'.

(* The parser has unlimited stack. *)
Definition unlimited : option nat := None.

(* Parsing several inputs one after another with the same parser object: each
   parse starts with what the one before has left in the buffer. *)
Fixpoint session (room : option nat) (left : list ascii) (inputs : list string)
  : res (list outcome * list ascii) :=
  match inputs with
  | [] => Ok ([], left)
  | s :: inputs' =>
      bind (parse room left s) (fun r =>
      bind (session room (snd r) inputs') (fun q =>
      Ok (fst r :: fst q, snd q)))
  end.

(* Lexemes with spaces put in: lead spaces at the start, and after each lexeme
   as many as the list says. *)
Definition spaces (n : nat) : list ascii := repeat " "%char n.

Fixpoint padded (lexemes : list (list ascii)) (pads : list nat) : list ascii :=
  match lexemes, pads with
  | w :: lexemes', n :: pads' => w ++ spaces n ++ padded lexemes' pads'
  | _, _ => []
  end.
