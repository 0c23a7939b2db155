(* Specification vocabulary for compounds, independent of the construction. *)
From Coq Require Import ZArith List Bool Sorting.
From Verif Require Import Base Hash Enums Term TermSpec.
Import ListNotations.
Local Open Scope Z_scope.

(* The connectors whose components form a set. *)
Inductive set_like : connector -> Prop :=
| sl_and : set_like Conjunction
| sl_or : set_like Disjunction
| sl_par : set_like ParallelEvents
| sl_iint : set_like IntensionalIntersection
| sl_eint : set_like ExtensionalIntersection
| sl_iset : set_like IntensionalSet
| sl_eset : set_like ExtensionalSet.

(* The connectors that keep their arguments exactly as given. *)
Inductive plain : connector -> Prop :=
| pl_prod : plain Product
| pl_ediff : plain ExtensionalDifference
| pl_idiff : plain IntensionalDifference
| pl_neg : plain Negation
| pl_iimg : plain IntensionalImage
| pl_eimg : plain ExtensionalImage
| pl_list : plain CList.

(* The hash separates the terms of the class: no collision among them. *)
Definition collision_free (U : term -> Prop) : Prop :=
  (forall x, U x -> var_free x) /\ (forall x y, U x -> U y -> thash x = thash y -> x = y).

(* [unfolds c l l']: l' is l with every compound of connector c replaced in
   place by its components. *)
Inductive unfolds (c : connector) : list term -> list term -> Prop :=
| unf_nil : unfolds c [] []
| unf_same l' l r : unfolds c l r -> unfolds c (Comp c l' :: l) (l' ++ r)
| unf_other t l r : (forall l', t <> Comp c l') -> unfolds c l r -> unfolds c (t :: l) (t :: r).

(* t is a compound with one of the set-like connectors. *)
Definition set_compound (t : term) : Prop := exists c l, t = Comp c l /\ set_like c.

(* A list is kept by ascending hash without repetition. *)
Definition ascending (l : list term) : Prop := StronglySorted (fun x y => thash x < thash y) l.

(* The two intersection connectors. *)
Definition intersection (c : connector) : Prop :=
  c = ExtensionalIntersection \/ c = IntensionalIntersection.

(* A component list that a set-like connector c can carry: ascending, no
   component with connector c, at least two components unless the connector
   is a set and its only component is no set-like compound, and below an
   intersection at most one extensional and one intensional set. *)
Record fits (c : connector) (l : list term) : Prop := {
  fits_ascending : ascending l;
  fits_var_free : Forall var_free l;
  fits_unlike : forall l', ~ In (Comp c l') l;
  fits_many : (2 <= length l)%nat \/ (exists t, l = [t] /\ ~ set_compound t);
  fits_sets : intersection c -> forall s a b,
      s = ExtensionalSet \/ s = IntensionalSet ->
      In (Comp s a) l -> In (Comp s b) l -> a = b
}.

(* Every set-like compound met when descending through set-like compounds has
   a fitting component list of valid length. *)
Inductive tidy : term -> Prop :=
| tidy_other t : ~ set_compound t -> tidy t
| tidy_comp c l : set_like c -> fits c l -> Forall tidy l ->
    (2 <= length l)%nat \/ c = ExtensionalSet \/ c = IntensionalSet ->
    tidy (Comp c l).

(* No sequence (&/) directly inside a sequence, anywhere in the term. *)
Definition sequences_flat (t : term) : Prop :=
  forall l l', occurs (Comp SequentialEvents l) t -> ~ In (Comp SequentialEvents l') l.
