(* Model of Narsese/include/Connector.h, Copula.h, Tense.h, Variable.h (enums)
   and of the Python bindings in Narsese/src/Connector.cpp, Copula.cpp. *)
From Coq Require Import ZArith List String Bool.
Import ListNotations.
Local Open Scope Z_scope.

(* Connector.h l.11-29, enum Connector without None. *)
Inductive connector : Type :=
| Conjunction | Disjunction | Product | ParallelEvents | SequentialEvents
| IntensionalIntersection | ExtensionalIntersection
| ExtensionalDifference | IntensionalDifference | Negation
| IntensionalSet | ExtensionalSet | IntensionalImage | ExtensionalImage | CList.

(* All connectors, in the order of their values. *)
Definition all_connectors : list connector :=
  [Conjunction; Disjunction; Product; ParallelEvents; SequentialEvents;
   IntensionalIntersection; ExtensionalIntersection;
   ExtensionalDifference; IntensionalDifference; Negation;
   IntensionalSet; ExtensionalSet; IntensionalImage; ExtensionalImage; CList].

(* Connector.h l.14-28, the numeric values. *)
Definition con_code (c : connector) : Z :=
  match c with
  | Conjunction => 0 | Disjunction => 1 | Product => 2 | ParallelEvents => 3
  | SequentialEvents => 4 | IntensionalIntersection => 5
  | ExtensionalIntersection => 6 | ExtensionalDifference => 7
  | IntensionalDifference => 8 | Negation => 9 | IntensionalSet => 10
  | ExtensionalSet => 11 | IntensionalImage => 12 | ExtensionalImage => 13
  | CList => 14
  end.

Definition con_eqb (a b : connector) : bool := con_code a =? con_code b.

(* Reading a C array by an enum value; [false] is never reached for the
   fifteen connectors (None = -1, which would be out of bounds, is not a value
   of [connector]). *)
Definition tab (t : list bool) (c : connector) : bool :=
  nth (Z.to_nat (con_code c)) t false.

(* Connector.h l.50 *)
Definition reducible_tab : list bool :=
  [true; true; false; true; true; true; true; false; false; false; true; true; false; false; false].
(* Connector.h l.51 *)
Definition commutative_tab : list bool :=
  [true; true; false; true; false; true; true; false; false; false; true; true; false; false; false].
(* Connector.h l.52 *)
Definition single_only_tab : list bool :=
  [false; false; false; false; false; false; false; false; false; true; false; false; false; false; false].
(* Connector.h l.53 *)
Definition double_only_tab : list bool :=
  [false; false; false; false; false; false; false; true; true; false; false; false; false; false; false].
(* Connector.h l.54 *)
Definition multiple_only_tab : list bool :=
  [true; true; true; true; true; true; true; true; true; false; false; false; true; true; false].
(* Connector.h l.55 *)
Definition temporal_tab : list bool :=
  [false; false; false; true; true; false; false; false; false; false; false; false; false; false; false].

(* Connector.h l.57-62 *)
Definition is_commutative (c : connector) : bool := tab commutative_tab c.
Definition is_reducible (c : connector) : bool := tab reducible_tab c.
Definition is_single_only (c : connector) : bool := tab single_only_tab c.
Definition is_double_only (c : connector) : bool := tab double_only_tab c.
Definition is_multiple_only (c : connector) : bool := tab multiple_only_tab c.
Definition is_temporal (c : connector) : bool := tab temporal_tab c.

(* Connector.h l.63-69, check_valid; len_terms is an unsigned int. *)
Definition check_valid (c : connector) (len_terms : Z) : bool :=
  (negb (is_single_only c) || (len_terms =? 1))
  && (negb (is_double_only c) || (len_terms =? 2))
  && (negb (is_multiple_only c) || (1 <? len_terms))
  && (0 <? len_terms).

(* Connector.h l.46, Repr *)
Definition con_repr (c : connector) : string :=
  match c with
  | Conjunction => "&&" | Disjunction => "||" | Product => "*"
  | ParallelEvents => "&|" | SequentialEvents => "&/"
  | IntensionalIntersection => "|" | ExtensionalIntersection => "&"
  | ExtensionalDifference => "-" | IntensionalDifference => "~"
  | Negation => "--" | IntensionalSet => "[" | ExtensionalSet => "{"
  | IntensionalImage => "\" | ExtensionalImage => "/" | CList => "#"
  end%string.

(* Connector.cpp l.10-25: Python name, bound value, documented symbol. *)
Definition py_connectors : list (string * connector * string) :=
  [("Conjunction", Conjunction, "&&"); ("Disjunction", Disjunction, "||");
   ("Product", Product, "*"); ("ParallelEvents", ParallelEvents, "&|");
   ("SequentialEvents", SequentialEvents, "&/");
   ("IntensionalIntersection", IntensionalIntersection, "|");
   ("ExtensionalIntersection", ExtensionalIntersection, "&");
   ("ExtensionalDifference", ParallelEvents, "-");
   ("IntensionalDifference", IntensionalDifference, "~");
   ("Negation", Negation, "--"); ("IntensionalSet", IntensionalSet, "[");
   ("ExtensionalSet", ExtensionalSet, "{");
   ("IntensionalImage", IntensionalImage, "\");
   ("ExtensionalImage", ExtensionalImage, "/"); ("List", CList, "#")]%string.

(* Copula.h l.11-26, enum Copula without None. *)
Inductive copula : Type :=
| Inheritance | Similarity | Instance | Property | InstanceProperty
| Implication | PredictiveImplication | ConcurrentImplication
| RetrospectiveImplication | Equivalence | PredictiveEquivalence
| ConcurrentEquivalence.

Definition all_copulas : list copula :=
  [Inheritance; Similarity; Instance; Property; InstanceProperty;
   Implication; PredictiveImplication; ConcurrentImplication;
   RetrospectiveImplication; Equivalence; PredictiveEquivalence;
   ConcurrentEquivalence].

(* Copula.h l.14-25 *)
Definition cop_code (c : copula) : Z :=
  match c with
  | Inheritance => 0 | Similarity => 1 | Instance => 2 | Property => 3
  | InstanceProperty => 4 | Implication => 5 | PredictiveImplication => 6
  | ConcurrentImplication => 7 | RetrospectiveImplication => 8
  | Equivalence => 9 | PredictiveEquivalence => 10
  | ConcurrentEquivalence => 11
  end.

Definition cop_eqb (a b : copula) : bool := cop_code a =? cop_code b.

(* Copula.h l.40, Repr *)
Definition cop_repr (c : copula) : string :=
  match c with
  | Inheritance => "-->" | Similarity => "<->" | Instance => "{--"
  | Property => "--]" | InstanceProperty => "{-]" | Implication => "==>"
  | PredictiveImplication => "=/>" | ConcurrentImplication => "=|>"
  | RetrospectiveImplication => "=\>" | Equivalence => "<=>"
  | PredictiveEquivalence => "</>" | ConcurrentEquivalence => "<|>"
  end%string.

Definition cop_tab (t : list bool) (c : copula) : bool :=
  nth (Z.to_nat (cop_code c)) t false.

(* Copula.h l.42-44 *)
Definition cop_commutative (c : copula) : bool :=
  cop_tab [false; true; false; false; false; false; false; false; false; true; false; true] c.
Definition cop_higher_order (c : copula) : bool :=
  cop_tab [false; false; false; false; false; true; true; true; true; true; true; true] c.
Definition cop_temporal (c : copula) : bool :=
  cop_tab [false; false; false; false; false; false; true; true; true; false; true; true] c.

(* Copula.h l.45, _symmetrize; [None] is COPULA::None = -1. *)
Definition symmetrize_tab (c : copula) : option copula :=
  match c with
  | Inheritance => Some Similarity | Similarity => Some Similarity
  | Instance => None | Property => None | InstanceProperty => None
  | Implication => Some Equivalence
  | PredictiveImplication => Some PredictiveEquivalence
  | ConcurrentImplication => Some ConcurrentEquivalence
  | RetrospectiveImplication => None
  | Equivalence => Some Equivalence
  | PredictiveEquivalence => Some PredictiveEquivalence
  | ConcurrentEquivalence => Some ConcurrentEquivalence
  end.

(* Copula.h l.46, _reverse *)
Definition reverse_tab (c : copula) : option copula :=
  match c with
  | PredictiveImplication => Some RetrospectiveImplication
  | ConcurrentImplication => Some ConcurrentImplication
  | RetrospectiveImplication => Some PredictiveImplication
  | ConcurrentEquivalence => Some ConcurrentEquivalence
  | _ => None
  end.

(* The value of an entry as an int: COPULA::None is -1. *)
Definition cop_opt_code (o : option copula) : Z :=
  match o with None => -1 | Some c => cop_code c end.

(* Copula.h l.51-52: declared to return bool, so the enum value is converted
   to bool: any non-zero value, including -1, becomes true. *)
Definition symmetrize (c : copula) : bool := negb (cop_opt_code (symmetrize_tab c) =? 0).
Definition reverse (c : copula) : bool := negb (cop_opt_code (reverse_tab c) =? 0).

(* Variable.h l.17-22 *)
Inductive vkind : Type := Independent | Dependent | Query.
Definition vk_code (k : vkind) : Z :=
  match k with Independent => 0 | Dependent => 1 | Query => 2 end.
Definition vk_eqb (a b : vkind) : bool := vk_code a =? vk_code b.
(* Variable.h l.24 *)
Definition vk_repr (k : vkind) : string :=
  match k with Independent => "$" | Dependent => "#" | Query => "?" end%string.
