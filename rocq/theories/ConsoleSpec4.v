(* Vocabulary for what lines without variables mean at the console. *)
From Coq Require Import ZArith String Ascii List Bool.
From Verif Require Import Base Parser Buffer Term Actions Console.
From Verif Require Interning.
Import ListNotations.

(* A syntax tree in which no variable is named *)
Inductive unnamed : ast -> Prop :=
  | U_leaf e w : ~ In e ["independent_var"; "dependent_var"; "query_var"]%string -> unnamed (Leaf e w)
  | U_node e l : ~ In e ["independent_var"; "dependent_var"; "query_var"]%string -> Forall unnamed l -> unnamed (Node e l).

(* States that differ at most in the names of variables *)
Definition alike (st st' : state) : Prop :=
  atoms st = atoms st' /\ operations st = operations st' /\ store st = store st' /\ pending st = pending st'.

(* parse_input k times: what it returns each time, and whether it threw *)
Fixpoint hearings ord fresh (room : option nat) (k : nat) (st : state) (b : buffer) (stream : list Z)
  : res (state * buffer * list (option value * bool)) :=
  match k with
  | O => Ok (st, Buf (cells b) (used b) stream (ended b), [])
  | S k' =>
      bind (parse_input ord fresh room st b stream) (fun '(st, b, v, thrown) =>
      bind (hearings ord fresh room k' st b (queue b)) (fun '(st, b, vs) => Ok (st, b, (v, thrown) :: vs)))
  end.
