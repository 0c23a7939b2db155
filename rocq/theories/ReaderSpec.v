(* Notions used to state what the reader of example files does. *)
From Coq Require Import ZArith String Ascii List Bool.
From Verif Require Import Base GenerateSpec.
Import ListNotations.
Open Scope string_scope.
Open Scope list_scope.

(* The characters that count as white space: blank, tabulator, newline,
   vertical tabulator, form feed, carriage return. *)
Definition white (c : ascii) : Prop := In (nat_of_ascii c) [32; 9; 10; 11; 12; 13]%nat.
Definition figure (c : ascii) : Prop := (48 <= nat_of_ascii c <= 57)%nat.

(* t is s without the white space around it. *)
Definition trimmed (s t : string) : Prop :=
  (exists a b, s = (a ++ t ++ b)%string /\ Forall white (list_ascii_of_string a) /\ Forall white (list_ascii_of_string b)) /\
  (forall c r, t = String c r -> ~ white c) /\ (forall c r, t = (r ++ String c "")%string -> ~ white c).

(* A number, a comment. *)
Definition all_figures (s : string) : Prop := Forall figure (list_ascii_of_string s).
Definition comment (s : string) : Prop := exists r, s = String "'" r.

(* What is on a line: a sentence, or nothing for the parser. *)
Definition carries (l x : string) : Prop := trimmed l x /\ ~ all_figures x /\ ~ comment x.
Definition carries_nothing (l : string) : Prop := exists x, trimmed l x /\ (all_figures x \/ comment x).

Inductive picks : list string -> list string -> Prop :=
  | P_end : picks [] []
  | P_skip l ls xs : carries_nothing l -> picks ls xs -> picks (l :: ls) xs
  | P_take l x ls xs : carries l x -> picks ls xs -> picks (l :: ls) (x :: xs).

(* Lines on which isdigit is asked about a negative number: after nothing but
   figures there is a character beyond ASCII (other than the last one, which
   looks like EOF). *)
Definition offending (l : string) : Prop := exists x a c r,
  trimmed l x /\ x = (a ++ String c r)%string /\ all_figures a /\ (128 <= nat_of_ascii c < 255)%nat.

(* The lines of a file. *)
Definition unbroken (l : string) : Prop := ~ In newline (list_ascii_of_string l).
Definition lines_in (content : string) (ls : list string) : Prop :=
  Forall unbroken ls /\
  (content = as_lines ls \/
   exists ls' l, ls = ls' ++ [l] /\ l <> "" /\ content = (as_lines ls' ++ l)%string).

(* What is done for each of a list of sentences, one after another. *)
Fixpoint in_turn {D} (f : D -> string -> res (D * string)) (d : D) (xs : list string) : res (D * list string) :=
  match xs with
  | [] => Ok (d, [])
  | x :: xs' => bind (f d x) (fun '(d, s) => bind (in_turn f d xs') (fun '(d, r) => Ok (d, s :: r)))
  end.
