(* What Python shows of a Budget and of a Truth: Budget.cpp lines 17-18 and
   Truth.h lines 62-65 *)
From Coq Require Import ZArith String Ascii List Bool.
From Flocq Require Import Core BinarySingleNaN.
From Verif Require Import Base Term Float Truth Actions Printer Api.
Open Scope string_scope.
Open Scope Z_scope.

(* {:.kf} of a float or a double: as Printer.fixed (Budget.cpp line 18), for
   any format *)
Definition places (k : nat) {prec emax} (x : binary_float prec emax) : string :=
  match x with
  | B754_nan => "nan"
  | B754_infinity s => if s then "-inf" else "inf"
  | B754_zero s => ((if s then "-" else "") ++ "0." ++ padded k 0 "")
  | B754_finite s m e _ =>
      let p := 10 ^ Z.of_nat k in
      let n := if 0 <=? e then Zpos m * 2 ^ e * p else nearest_even (Zpos m * p) (2 ^ (- e)) in
      ((if s then "-" else "") ++ natural 10 (n / p) ++ "." ++ padded k (n mod p) "")
  end.

(* Budget.cpp line 18: two doubles and a float, not clamped *)
Definition budget_text (b : budget) : string :=
  "<Budget: $" ++ places 2 (priority b) ++ ";" ++ places 2 (durability b) ++ ";" ++ places 2 (Actions.quality b : float32) ++ "$>".

Section Texts.
(* {} of a float (Truth.h line 64): the shortest text, which is up to the
   library *)
Variable short : float32 -> string.
(* What Python shows of its own objects: no code of /repo (Truth.h lines 62-65
   and Budget.cpp lines 17-18 are the only ones for objects that are no terms,
   sentences or tasks). *)
Variable own : object -> string.

(* Truth.h line 64 *)
Definition truth_text (t : truth ieee) : string :=
  "<Truth: %" ++ places 2 (fr ieee t : float32) ++ ", " ++ places 2 (co ieee t : float32) ++ "% (k=" ++ short (kk ieee t) ++ ")>".

(* Budget.cpp lines 17-18, Truth.cpp line 14: for other_text of Api.v *)
Definition library_text (o : object) : string :=
  match o with
  | PyBudget b => budget_text b
  | PyTruth t => truth_text t
  | o => own o
  end.
End Texts.
