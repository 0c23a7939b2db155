(* Specification vocabulary for colours. *)
From Coq Require Import ZArith String Ascii Bool.
Open Scope Z_scope.

(* The number that decimal digits stand for *)
Fixpoint denotes (acc : Z) (s : string) : option Z :=
  match s with
  | EmptyString => Some acc
  | String c s' =>
      let d := Z.of_nat (nat_of_ascii c) - 48 in
      if (0 <=? d) && (d <=? 9) then denotes (10 * acc + d) s' else None
  end.
