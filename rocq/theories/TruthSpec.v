(* Vocabulary of the properties of truth values *)
From Coq Require Import ZArith List Bool Reals.
From Flocq Require Import Core BinarySingleNaN.
From Verif Require Import Float Truth.
Local Open Scope R_scope.

(* A floating-point number that is neither infinite nor NaN and lies between
   two bounds *)
Definition within {prec emax} (lo hi : R) (x : binary_float prec emax) : Prop :=
  is_finite x = true /\ lo <= B2R x <= hi.

(* Frequency and confidence between 0 and 1 *)
Definition proper (t : truth ieee) : Prop :=
  within 0 1 (fr ieee t : float32) /\ within 0 1 (co ieee t : float32).

(* Confidence below 1 *)
Definition open (t : truth ieee) : Prop := B2R (co ieee t : float32) < 1.

(* The evidential horizon of a truth value is 1 *)
Definition unit_k (t : truth ieee) : Prop := kk ieee t = of_Z32 1.

(* k positive and not astronomically large *)
Definition sane_k (t : truth ieee) : Prop :=
  is_finite (kk ieee t : float32) = true /\ 0 < B2R (kk ieee t : float32) <= bpow radix2 100.

(* Revising a truth value with the members of a list, one after the other *)
Fixpoint revise_all (t : truth ieee) (l : list (truth ieee)) : truth ieee :=
  match l with
  | nil => t
  | cons u l =>
      let m : truths ieee := fun p => if Z.eqb p 1 then t else u in
      revise_all (truth_revision ieee m 1 2 1%Z) l
  end.

(* Exact arithmetic *)
Definition exact_truth (f c k : R) : truth exact := Truth exact f c k.

Definition exact_revision (t1 t2 : truth exact) : truth exact :=
  truth_revision exact (fun p => if Z.eqb p 1 then t1 else t2) 1 2 1%Z.

(* A time of at most 2^60 in size *)
Definition moderate (z : Z) : Prop := (- 1152921504606846976 <= z <= 1152921504606846976)%Z.
