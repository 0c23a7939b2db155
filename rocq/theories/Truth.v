(* Model of Narsese/include/Truth.h, Narsese/include/Budget.h (quality),
   NAL/Functions/include/ExtendedBooleanFunction.h,
   NAL/Functions/include/UncertaintyMappingFunctions.h,
   NAL/Functions/include/TruthFunctions.h and
   NAL/Functions/include/TemporalFunctions.h.

   An operation on two floats is done in float; one with a double operand, or
   with a literal such as 0.5, in double.  Integer literals take the type of
   the other operand. *)
From Coq Require Import ZArith List Bool.
From Verif Require Import Base Hash Float.
Import ListNotations.
Local Open Scope Z_scope.

Section Truth.
Variable A : arith.

Notation F := (single A).
Notation D := (double A).
Local Notation "x +. y" := (sadd A x y) (at level 50, left associativity).
Local Notation "x -. y" := (ssub A x y) (at level 50, left associativity).
Local Notation "x *. y" := (smul A x y) (at level 40, left associativity).
Local Notation "x /. y" := (sdiv A x y) (at level 40, left associativity).
Local Notation "x +: y" := (dadd A x y) (at level 50, left associativity).
Local Notation "x -: y" := (dsub A x y) (at level 50, left associativity).
Local Notation "x *: y" := (dmul A x y) (at level 40, left associativity).
Local Notation "x /: y" := (ddiv A x y) (at level 40, left associativity).

(* The literals 1 (in float and in double expressions), 0.5, 0.75, 0.0, 1e-8 *)
Definition one : F := sint A 1.
Definition done : D := dfrac A 1 1.
Definition half : D := dfrac A 1 2.
Definition three_quarters : D := dfrac A 3 4.
Definition dzero : D := dfrac A 0 1.
Definition threshold : D := dfrac A 1 100000000.

(* Truth.h l.19-21 *)
Record truth := Truth { fr : F; co : F; kk : F }.

(* Config.cpp l.11-15 *)
Definition config_f : F := down A (dfrac A 1 1).
Definition config_c : F := down A (dfrac A 9 10).

(* Truth.h l.24, Truth(float k), and l.61-64, create; k defaults to 1.0 *)
Definition truth_default (k : F) : truth := Truth config_f config_c k.

(* Truth.h l.26-29 *)
Definition expectation (t : truth) : D :=
  up A (co t) *: (up A (fr t) -: half) +: half.

(* Truth.h l.31-34, computed in float *)
Definition weight (t : truth) : D := up A (kk t *. co t /. (one -. co t)).

(* Truth.h l.36-39 *)
Definition weight_p (t : truth) : D := up A (kk t *. fr t *. co t /. (one -. co t)).

(* Truth.h l.41-44 *)
Definition weight_m (t : truth) : D :=
  up A (kk t *. (one -. fr t) *. co t /. (one -. co t)).

(* Truth.h l.46-50.  The conditional has type double. *)
Definition set_w (t : truth) (w_p w : D) : truth :=
  Truth (down A (if dlt A dzero w then w_p /: w else half))
        (down A (w /: (w +: up A (kk t))))
        (kk t).

(* Budget.h l.30-34; std::max(a, b) is b if a < b, else a *)
Definition quality_from_truth (t : truth) : D :=
  let e := expectation t in
  let e' := (done -: e) *: three_quarters in
  if dlt A e e' then e' else e.

(* ExtendedBooleanFunction.h l.10-14 *)
Definition And2 (x1 x2 : D) : D := x1 *: x2.
Definition And3 (x1 x2 x3 : D) : D := x1 *: x2 *: x3.
Definition And4 (x1 x2 x3 x4 : D) : D := x1 *: x2 *: x3 *: x4.

(* ExtendedBooleanFunction.h l.16-20 *)
Definition Or2 (x1 x2 : D) : D := done -: (done -: x1) *: (done -: x2).
Definition Or3 (x1 x2 x3 : D) : D :=
  done -: (done -: x1) *: (done -: x2) *: (done -: x3).
Definition Or4 (x1 x2 x3 x4 : D) : D :=
  done -: (done -: x1) *: (done -: x2) *: (done -: x3) *: (done -: x4).

(* ExtendedBooleanFunction.h l.22-26 *)
Definition Or_list (l : list D) : D :=
  done -: fold_left (fun acc x => acc *: (done -: x)) l done.

(* UncertaintyMappingFunctions.h l.9-13, all in float but the comparison.
   The parameters being float, doubles are converted at the call.  In w_to_f
   the float quotient goes through double and back, which keeps it. *)
Definition fc_to_w_plus (f c k : F) : F := k *. f *. c /. (one -. c).
Definition fc_to_w (f c k : F) : F := k *. c /. (one -. c).
Definition fc_to_w_minus (f c k : F) : F := k *. (one -. f) *. c /. (one -. c).
Definition w_to_f (w_plus w : F) : F :=
  down A (if dlt A threshold (up A w) then up A (w_plus /. w) else dzero).
Definition w_to_c (w k : F) : F := w /. (w +. k).

(* UncertaintyMappingFunctions.h l.16-30 *)
Definition truth_from_w (w_plus w k : F) : truth :=
  if negb (deq A (up A w) dzero)
  then Truth (w_to_f w_plus w) (w_to_c w k) k
  else Truth (down A half) (down A dzero) k.

(* UncertaintyMappingFunctions.h l.33-40 and UncertaintyMappingFunctions.cpp *)
Definition w_from_truth (t : truth) : F * F :=
  (fc_to_w_plus (fr t) (co t) (kk t), fc_to_w_minus (fr t) (co t) (kk t)).

(* Truth objects by address *)
Definition truths := Z -> truth.

(* TruthFunctions.h l.19-30, truth_revision on the objects at p1 and p2, which
   may be one object *)
Definition truth_revision (m : truths) (p1 p2 : Z) : truths :=
  let w := weight (m p1) +: weight (m p2) in
  let w_p := weight_p (m p1) +: weight_p (m p2) in
  let k := kk (m p1) in
  let f := w_to_f (down A w_p) (down A w) in
  let c := w_to_c (down A w) k in
  fun p => if p =? p1 then Truth f c k else m p.

(* TruthFunctions.h l.37-47 *)
Definition truth_deduction (t1 t2 : truth) : truth :=
  let f1 := up A (fr t1) in let f2 := up A (fr t2) in
  let c1 := up A (co t1) in let c2 := up A (co t2) in
  Truth (down A (And2 f1 f2)) (down A (And4 f1 f2 c1 c2)) (kk t1).

(* TruthFunctions.h l.49-56; the result's k is the default 1.0 *)
Definition truth_induction (t1 t2 : truth) : truth :=
  let f1 := up A (fr t1) in let f2 := up A (fr t2) in
  let c1 := up A (co t1) in let c2 := up A (co t2) in
  set_w (truth_default (down A done)) (And4 f1 f2 c1 c2) (And3 f2 c1 c2).

(* TruthFunctions.h l.58-65 *)
Definition truth_comparison (t1 t2 : truth) : truth :=
  let f1 := up A (fr t1) in let f2 := up A (fr t2) in
  let c1 := up A (co t1) in let c2 := up A (co t2) in
  set_w (truth_default (down A done)) (And4 f1 f2 c1 c2) (And3 (Or2 f1 f2) c1 c2).

(* A value of type int64_t, or undefined behaviour on overflow *)
Definition int64 (z : Z) : res Z :=
  if (- 9223372036854775808 <=? z) && (z <=? 9223372036854775807) then Ok z else UB.

(* TemporalFunctions.h l.11-17.  The times are int64_t and abs is taken to be
   the overload for long.  decay_duration is a size_t, so d, the quotient
   and 1 - k_c are unsigned long; the product converts to float. *)
Definition project (t : truth) (t_source t_current t_target decay_duration : Z)
  : res truth :=
  bind (int64 (t_source - t_current)) (fun a =>
  bind (int64 (Z.abs a)) (fun a =>
  bind (int64 (t_target - t_current)) (fun b =>
  bind (int64 (Z.abs b)) (fun b =>
  bind (int64 (a + b)) (fun ab =>
  let d := (ab + decay_duration) mod two64 in
  bind (if 0 <? d then
          bind (int64 (t_source - t_target)) (fun s =>
          bind (int64 (Z.abs s)) (fun s => Ok (s / d)))
        else Ok 0) (fun k_c =>
  Ok (Truth (fr t) (sint A ((1 - k_c) mod two64) *. co t) (kk t)))))))).

End Truth.
