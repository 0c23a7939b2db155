(* Outcomes of modelled C++ code. *)

(* Not in the code: every modelled function that can go wrong returns one of
   these.  [UB] is undefined behaviour (out-of-range vector access, null
   dereference, dereferencing begin() of an empty container), [Throw] is a C++
   exception, [OutOfFuel] marks an unfinished recursion of the model and is
   proved unreachable wherever a theorem relies on it. *)
Inductive res (A : Type) : Type :=
| Ok (a : A)
| UB
| Throw
| OutOfFuel.
Arguments Ok {A} a.
Arguments UB {A}.
Arguments Throw {A}.
Arguments OutOfFuel {A}.

(* Sequencing of outcomes. *)
Definition bind {A B : Type} (r : res A) (f : A -> res B) : res B :=
  match r with
  | Ok a => f a
  | UB => UB
  | Throw => Throw
  | OutOfFuel => OutOfFuel
  end.
