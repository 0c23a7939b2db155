(* Specification vocabulary for terms, independent of the model's functions. *)
From Coq Require Import ZArith List Bool.
From Verif Require Import Base Hash Enums Term.
Import ListNotations.
Local Open Scope Z_scope.

(* [occurs u t]: the term [u] occurs in [t] (possibly is [t]). *)
Inductive occurs (u : term) : term -> Prop :=
| occ_here : occurs u u
| occ_subj c s p : occurs u s -> occurs u (Stmt c s p)
| occ_pred c s p : occurs u p -> occurs u (Stmt c s p)
| occ_comp c l x : In x l -> occurs u x -> occurs u (Comp c l).

(* No variable of any kind occurs in the term. *)
Definition var_free (t : term) : Prop := forall k i, ~ occurs (Var k i) t.

(* Only independent variables ($x) occur in the term. *)
Definition only_ivars (t : term) : Prop :=
  forall k i, occurs (Var k i) t -> k = Independent.

(* Equal up to the indices of variables. *)
Inductive renaming : term -> term -> Prop :=
| ren_atom op a : renaming (Atom op a) (Atom op a)
| ren_var k i j : renaming (Var k i) (Var k j)
| ren_itv n : renaming (Itv n) (Itv n)
| ren_stmt c s s' p p' :
    renaming s s' -> renaming p p' -> renaming (Stmt c s p) (Stmt c s' p')
| ren_comp c l l' : Forall2 renaming l l' -> renaming (Comp c l) (Comp c l').

(* The atomic occurrences of a term, left to right. *)
Fixpoint leaves (t : term) : list term :=
  match t with
  | Stmt _ s p => leaves s ++ leaves p
  | Comp _ l => flat_map leaves l
  | _ => [t]
  end.

(* The statement occurrences of a term. *)
Fixpoint statements (t : term) : list term :=
  match t with
  | Stmt _ s p => t :: statements s ++ statements p
  | Comp _ l => flat_map statements l
  | _ => []
  end.

(* An address holds a single object; [heap a] tells whether the object at [a]
   is an Operation. *)
Definition on_heap (heap : Z -> bool) (t : term) : Prop :=
  forall op a, occurs (Atom op a) t -> heap a = op.

(* Strict weak order (C++ named requirement Compare) on a class of values. *)
Definition strict_weak_order {A : Type} (P : A -> Prop) (lt : A -> A -> bool) : Prop :=
  (forall x, P x -> lt x x = false)
  /\ (forall x y, P x -> P y -> lt x y = true -> lt y x = false)
  /\ (forall x y z, P x -> P y -> P z ->
        lt x y = true -> lt y z = true -> lt x z = true)
  /\ (forall x y z, P x -> P y -> P z ->
        lt x y = false -> lt y x = false ->
        lt y z = false -> lt z y = false ->
        lt x z = false /\ lt z x = false).

(* A term without variables, or a bare variable. *)
Definition var_free_or_var (t : term) : Prop := var_free t \/ exists k i, t = Var k i.

(* Addresses in the positive half of the address space; intervals fit an int
   and are not -127, the interval with the hash of an independent variable. *)
Definition no_var_clash (t : term) : Prop :=
  (forall op a, occurs (Atom op a) t -> 0 <= a < 9223372036854775808)
  /\ (forall n, occurs (Itv n) t -> -2147483648 <= n < 2147483648 /\ n <> -127).

(* Addresses from 2^34 up to 2^62; intervals fit an int and are none of the
   three that have the hash of a variable. *)
Definition leaf_ok (t : term) : Prop :=
  (forall op a, occurs (Atom op a) t -> 17179869184 <= a < 4611686018427387904)
  /\ (forall n, occurs (Itv n) t ->
        -2147483648 <= n < 2147483648 /\ n <> -126 /\ n <> -127 /\ n <> -129).
