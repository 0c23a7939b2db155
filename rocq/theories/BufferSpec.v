(* What is said about the input buffer, in terms of Parser.v. *)
From Coq Require Import ZArith String Ascii List Bool Arith.
From Verif Require Import Base Tables Parser ParserSpec Buffer.
Import ListNotations.
Open Scope Z_scope.

(* How many of the remaining characters have been looked at once the next
   token has been asked for. *)
Definition looked (c : config) : nat :=
  match next c, stack c with
  | Look, top :: _ =>
      match get_sym (state top) (text c) with
      | Ok f => Nat.max (held c) (fread f)
      | _ => held c
      end
  | _, _ => held c
  end.

(* A buffer as parses leave it: nothing in it, whatever its size. *)
Definition idle (b : buffer) : Prop :=
  used b = 0%nat /\
  (cells b = [] \/
   exists k v cs, cells b = Some v :: cs /\ length cs = (128 + 128 * k)%nat).

(* An end of parsing says the same as an outcome of Parser.v. *)
Definition same (o : outcome) (e : ending) : Prop :=
  match o, e with
  | Accepted t, Built t' => t = t'
  | Rejected, Failed _ _ => True
  | _, _ => False
  end.
