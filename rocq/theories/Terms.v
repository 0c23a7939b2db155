(* Model of class Terms (Narsese/include/Term.h l.310-498). *)
From Coq Require Import ZArith List Bool.
From Verif Require Import Base Hash Enums Term.
Import ListNotations.

(* std::set<pTerm, compare>::insert with compare = operator< (Term.h l.313-322),
   on the sorted sequence of the elements: an element equivalent to an existing
   one is not inserted.  Exact when operator< is a strict weak order on the
   elements involved (C01); for other elements the C++ behaviour is undefined
   and this is only one possible outcome. *)
Fixpoint sinsert (x : term) (s : list term) : list term :=
  match s with
  | [] => [x]
  | y :: s' =>
      if tlt x y then x :: s
      else if tlt y x then y :: sinsert x s'
      else s
  end.

(* Term.h l.480-497, fill_terms for a commutative Terms: insert one by one. *)
Definition terms_set (l : list term) : list term :=
  fold_left (fun s x => sinsert x s) l [].

(* Term.h l.310-355: the constructors Terms(container, is_commutative); the
   value is the sequence seen by begin()/end() (l.455-469). *)
Definition mk_terms (comm : bool) (l : list term) : list term :=
  if comm then terms_set l else l.

(* A Terms object as seen by the static set operations: the flag and the
   iteration sequence. *)
Record terms : Type := Terms { t_comm : bool; t_elems : list term }.

(* Term.h l.326-327: terms_unordered is filled only in a commutative Terms. *)
Definition terms_unordered (t : terms) : list term :=
  if t_comm t then t_elems t else [].

(* std::set_intersection with compare{} (used in Term.h l.386-389). *)
Fixpoint set_intersection (l1 : list term) : list term -> list term :=
  fix inner (l2 : list term) : list term :=
    match l1, l2 with
    | x :: l1', y :: l2' =>
        if tlt x y then set_intersection l1' l2
        else if tlt y x then inner l2'
        else x :: set_intersection l1' l2'
    | _, _ => []
    end.

(* std::set_union with compare{} (used in Term.h l.408-411). *)
Fixpoint set_union (l1 : list term) : list term -> list term :=
  fix inner (l2 : list term) : list term :=
    match l1, l2 with
    | x :: l1', y :: l2' =>
        if tlt x y then x :: set_union l1' l2
        else if tlt y x then y :: inner l2'
        else x :: set_union l1' l2'
    | [], _ => l2
    | _, [] => l1
    end.

(* std::set_difference with compare{} (used in Term.h l.430-433). *)
Fixpoint set_difference (l1 : list term) : list term -> list term :=
  fix inner (l2 : list term) : list term :=
    match l1, l2 with
    | x :: l1', y :: l2' =>
        if tlt x y then x :: set_difference l1' l2
        else if tlt y x then inner l2'
        else set_difference l1' l2'
    | [], _ => []
    | _, [] => l1
    end.

(* The loop shared by the three operations (Term.h l.380-391, l.402-413,
   l.424-435): every operand after the first must be commutative. *)
Fixpoint fold_terms (op : list term -> list term -> list term)
    (acc : list term) (rest : list terms) : res (list term) :=
  match rest with
  | [] => Ok acc
  | t :: rest' =>
      if t_comm t then fold_terms op (terms_set (op acc (t_elems t))) rest'
      else Throw
  end.

(* Term.h l.373-393, 395-415, 417-437; the first operand contributes its
   terms_unordered whatever its flag; the result is a commutative Terms. *)
Definition terms_op (op : list term -> list term -> list term) (all : list terms)
  : res (list term) :=
  match all with
  | [] => Throw
  | t :: rest => bind (fold_terms op (terms_unordered t) rest) (fun s => Ok (terms_set s))
  end.
Definition terms_intersection : list terms -> res (list term) := terms_op set_intersection.
Definition terms_union : list terms -> res (list term) := terms_op set_union.
Definition terms_difference : list terms -> res (list term) := terms_op set_difference.
