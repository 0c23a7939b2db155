(* Notions for what Python shows of a Budget and of a Truth *)
From Coq Require Import ZArith String Ascii List Bool Reals.
From Flocq Require Import Core BinarySingleNaN.
From Verif Require Import PrinterSpec.
Open Scope string_scope.
Open Scope Z_scope.

(* A number with two decimal places, correctly rounded; what is no number by
   its name. *)
Definition two_places {prec emax} (x : binary_float prec emax) (s : string) : Prop :=
  match x with
  | B754_nan => s = "nan"
  | B754_infinity sign => s = if sign then "-inf" else "inf"
  | _ => decimal 2 x s
  end.

(* Values that a budget should have. *)
Definition in_unit {prec emax} (x : binary_float prec emax) : Prop := is_finite x = true /\ (0 <= B2R x <= 1)%R.

(* m hundredths are clearly the nearest to x. *)
Definition clearly {prec emax} (x : binary_float prec emax) (m : Z) : Prop :=
  (Rabs (B2R x * 100 - IZR m) <= 44 / 100)%R.

(* Two texts show numbers of hundredths that differ by at most one. *)
Definition about (s s' : string) : Prop :=
  exists h h', unit_text s h /\ unit_text s' h' /\ Z.abs (h - h') <= 1.
