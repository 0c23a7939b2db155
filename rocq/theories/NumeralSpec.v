(* Decimal numerals and their values. *)
From Coq Require Import ZArith String Ascii List Reals.
Import ListNotations.
Local Open Scope Z_scope.
Open Scope list_scope.

Definition decimal_digit (c : ascii) : Prop := 48 <= Z.of_nat (nat_of_ascii c) <= 57.

(* The number a sequence of digits stands for. *)
Definition number (l : list ascii) : Z :=
  fold_left (fun n c => 10 * n + (Z.of_nat (nat_of_ascii c) - 48)) l 0.

(* Unsigned numerals, with at least one digit, and their values. *)
Inductive reads : list ascii -> R -> Prop :=
  | reads_whole a : a <> [] -> Forall decimal_digit a -> reads a (IZR (number a))
  | reads_point a b : a ++ b <> [] -> Forall decimal_digit a -> Forall decimal_digit b ->
      reads (a ++ "."%char :: b) (IZR (number a) + IZR (number b) / 10 ^ length b)%R.
