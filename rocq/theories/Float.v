(* C++ arithmetic on float and double: IEEE 754 binary32 and binary64 with
   rounding to nearest, ties to even (x86-64 with SSE, no contraction into
   fused operations, no -ffast-math; CMakeLists.txt sets no such flag).  All
   NaNs are one value. *)
From Coq Require Import ZArith Bool Reals.
From Flocq Require Import Core BinarySingleNaN.

(* The two types and the operations the code uses on them.  The truth functions
   are written for any such structure: `ieee` is the one the program runs on,
   `exact` computes with real numbers and never rounds. *)
Record arith := Arith {
  single : Type;                              (* float *)
  double : Type;                              (* double *)
  sadd : single -> single -> single;
  ssub : single -> single -> single;
  smul : single -> single -> single;
  sdiv : single -> single -> single;
  dadd : double -> double -> double;
  dsub : double -> double -> double;
  dmul : double -> double -> double;
  ddiv : double -> double -> double;
  dlt : double -> double -> bool;             (* < on double; false for NaN *)
  deq : double -> double -> bool;             (* == on double; false for NaN *)
  sint : Z -> single;                         (* integer converted to float *)
  dfrac : Z -> Z -> double;                   (* literal n/d of type double *)
  up : single -> double;                      (* float to double *)
  down : double -> single                     (* double to float *)
}.

Definition float32 := binary_float 24 128.
Definition float64 := binary_float 53 1024.

Definition prec32 : Prec_gt_0 24 := eq_refl.
Definition prec64 : Prec_gt_0 53 := eq_refl.
Definition emax32 : Prec_lt_emax 24 128 := eq_refl.
Definition emax64 : Prec_lt_emax 53 1024 := eq_refl.
#[global] Existing Instance prec32.
#[global] Existing Instance prec64.
#[global] Existing Instance emax32.
#[global] Existing Instance emax64.

(* Conversion of an integer to a format, correctly rounded *)
Definition of_Z32 (n : Z) : float32 :=
  binary_normalize 24 128 prec32 emax32 mode_NE n 0 false.
Definition of_Z64 (n : Z) : float64 :=
  binary_normalize 53 1024 prec64 emax64 mode_NE n 0 false.

(* Conversion between the formats *)
Definition to64 (x : float32) : float64 :=
  match x with
  | B754_zero s => B754_zero s
  | B754_infinity s => B754_infinity s
  | B754_nan => B754_nan
  | B754_finite s m e _ =>
      binary_normalize 53 1024 prec64 emax64 mode_NE (cond_Zopp s (Zpos m)) e s
  end.

Definition to32 (x : float64) : float32 :=
  match x with
  | B754_zero s => B754_zero s
  | B754_infinity s => B754_infinity s
  | B754_nan => B754_nan
  | B754_finite s m e _ =>
      binary_normalize 24 128 prec32 emax32 mode_NE (cond_Zopp s (Zpos m)) e s
  end.

(* The literals of the code are quotients of two integers that a double holds
   exactly, so that one division gives the correctly rounded value. *)
Definition ieee : arith := {|
  single := float32;
  double := float64;
  sadd := Bplus mode_NE;
  ssub := Bminus mode_NE;
  smul := Bmult mode_NE;
  sdiv := Bdiv mode_NE;
  dadd := Bplus mode_NE;
  dsub := Bminus mode_NE;
  dmul := Bmult mode_NE;
  ddiv := Bdiv mode_NE;
  dlt := Bltb;
  deq := Beqb;
  sint := of_Z32;
  dfrac := fun n d => Bdiv mode_NE (of_Z64 n) (of_Z64 d);
  up := to64;
  down := to32
|}.

(* Exact arithmetic: the same program without rounding *)
Definition exact : arith := {|
  single := R;
  double := R;
  sadd := Rplus;
  ssub := Rminus;
  smul := Rmult;
  sdiv := Rdiv;
  dadd := Rplus;
  dsub := Rminus;
  dmul := Rmult;
  ddiv := Rdiv;
  dlt := Rlt_bool;
  deq := Req_bool;
  sint := IZR;
  dfrac := fun n d => (IZR n / IZR d)%R;
  up := fun x => x;
  down := fun x => x
|}.
