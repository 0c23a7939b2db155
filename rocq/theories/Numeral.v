(* Reading numbers: std::stod on the tokens of the parser, and the conversion
   of a double to int. *)
From Coq Require Import ZArith String Ascii List Bool.
From Flocq Require Import Core BinarySingleNaN.
From Verif Require Import Base Float.
Import ListNotations.
Local Open Scope Z_scope.

(* The decimal digit a character stands for. *)
Definition digit (c : ascii) : option Z :=
  let n := Z.of_nat (nat_of_ascii c) in
  if (48 <=? n) && (n <=? 57) then Some (n - 48) else None.

(* The digits at the front of a text, as a number appended to n; their count
   is added to k. *)
Fixpoint digits (s : string) (n k : Z) : Z * Z * string :=
  match s with
  | EmptyString => (n, k, s)
  | String c s' =>
      match digit c with
      | Some d => digits s' (10 * n + d) (k + 1)
      | None => (n, k, s)
      end
  end.

(* A sign at the front of a text: whether it is a minus, and what follows. *)
Definition sign (s : string) : bool * string :=
  match s with
  | String c s' => if Ascii.eqb c "-" then (true, s')
                   else if Ascii.eqb c "+" then (false, s') else (false, s)
  | EmptyString => (false, s)
  end.

(* What follows a decimal point at the front of a text. *)
Definition after_point (s : string) : option string :=
  match s with
  | String c s' => if Ascii.eqb c "." then Some s' else None
  | EmptyString => None
  end.

(* The longest decimal numeral at the front of a text: sign, all digits as one
   number, number of digits after the point, number of digits. *)
Definition decimal (s : string) : bool * Z * Z * Z :=
  let '(neg, s) := sign s in
  let '(n, k, s) := digits s 0 0 in
  match after_point s with
  | Some s' => let '(m, l, _) := digits s' n 0 in (neg, m, l, k + l)
  | None => (neg, n, 0, k)
  end.

(* n / 10^k to the nearest double: the quotient is taken to 1100 binary places
   and one more bit that tells whether anything is left. *)
Definition nearest (neg : bool) (n k : Z) : float64 :=
  let a := n * 2 ^ 1100 in
  let d := 10 ^ k in
  let m := 2 * (a / d) + (if a mod d =? 0 then 0 else 1) in
  binary_normalize 53 1024 prec64 emax64 mode_NE (if neg then - m else m) (-1101) neg.

(* n / 10^k is not zero but too small for a normal double, also after rounding
   to 53 bits, and not a double. *)
Definition underflow (n k : Z) : bool :=
  (0 <? n) && (n * 2 ^ 1076 <? (2 ^ 54 - 1) * 10 ^ k)
  && negb ((n * 2 ^ 1074) mod 10 ^ k =? 0).

Definition is_finite64 (x : float64) : bool :=
  match x with B754_zero _ | B754_finite _ _ _ _ => true | _ => false end.

(* std::stod as called in Narsese/Parser/NarseseParser.cpp lines 869-910
   (libstdc++ with glibc's strtod, locale C): the nearest double; throws when
   there is no number, or when the value overflows or underflows (ERANGE).
   White space in front, hexadecimal numbers, exponents, infinity and NaN do
   not occur in the tokens and are left out. *)
Definition stod (s : string) : res float64 :=
  let '(neg, n, k, count) := decimal s in
  if count =? 0 then Throw
  else if underflow n k then Throw
  else let x := nearest neg n k in
       if is_finite64 x then Ok x else Throw.

(* NarseseParser.cpp lines 480 and 769, (signed int) of a double: the fraction
   is dropped; undefined when the value does not fit. *)
Definition truncated (x : float64) : res Z :=
  if is_finite64 x then
    let z := Btrunc x in
    if (-2147483648 <=? z) && (z <=? 2147483647) then Ok z else UB
  else UB.
