(* Model of Narsese/include/Term.h, Term.inl, Statement.*, Compound.h (hash),
   Variable.*, Interval.h, Operation.h: terms as values. *)
From Coq Require Import ZArith List Bool.
From Verif Require Import Base Hash Enums.
Import ListNotations.
Local Open Scope Z_scope.

(* Term.h l.83-200 and its subclasses.  A term object is represented by the
   tree it denotes:
   - [Atom op a]: a Term (op = false) or Operation (op = true, Operation.h
     l.17-26) object living at address [a];
   - [Var k i]: a Variable of kind [k] whose index cell holds [i]
     (NarseseParser.cpp l.717-764 always adds exactly one index; variables made
     through the C++ API without an index are not represented);
   - [Itv n]: an Interval (Interval.h l.20-45);
   - [Stmt c s p], [Comp c l]: Statement and Compound, [l] in iteration order.
   Addresses of Variables, Intervals, Statements and Compounds never influence
   a value and are not represented here (see Object.v for identities). *)
Inductive term : Type :=
| Atom (op : bool) (a : Z)
| Var (k : vkind) (i : Z)
| Itv (n : Z)
| Stmt (c : copula) (s p : term)
| Comp (c : connector) (l : list term).

(* Term.h l.73-81 and l.96: Variables, Intervals and Operations are created
   with type ATOM (Variable.inl l.34, Term.h l.125). *)
Definition ttype (t : term) : Z :=
  match t with
  | Atom _ _ | Var _ _ | Itv _ => 0
  | Stmt _ _ _ => 1
  | Comp _ _ => 2
  end.

(* Term.h l.145 *)
Definition is_compound (t : term) : bool :=
  match t with Comp _ _ => true | _ => false end.

(* hash_value of a term.
   - Atom: Term.h l.125; an Operation keeps it (Operation.h l.21-25).
   - Var: Variable.inl l.59: kind only.
   - Itv: Interval.h l.27.
   - Stmt: Statement.h l.51-72 called from Statement.inl l.18, before the index
     lists are connected, hence with three empty lists.
   - Comp: Compound.h l.78-104 called from Compound.cpp l.311, likewise.
   '<' is 60, '(' is 40, ')' is 41. *)
Fixpoint thash (t : term) : Z :=
  match t with
  | Atom _ a => hash_container [0; size_t a]
  | Var k _ => hash_container [size_t (-3); vk_code k]
  | Itv n => hash_container [size_t (-1); size_t n]
  | Stmt c s p =>
      hash_container [1; 60; thash s; cop_code c; thash p; 60; 40; 41; 40; 41; 40; 41]
  | Comp c l =>
      hash_container ([2; 40; con_code c] ++ map thash l ++ [41; 40; 41; 40; 41; 40; 41])
  end.

(* has_var, has_ivar, has_dvar, has_qvar: Variable.inl l.40-57 for a variable,
   Term.h l.163-174 (_refresh_var_status) for statements and compounds; false
   otherwise (Term.h l.102-105). *)
Fixpoint has_var (t : term) : bool :=
  match t with
  | Var _ _ => true
  | Stmt _ s p => existsb (fun b => b) [has_var s; has_var p]
  | Comp _ l => existsb (fun b => b) (map has_var l)
  | _ => false
  end.

Fixpoint has_ivar (t : term) : bool :=
  match t with
  | Var k _ => vk_eqb k Independent
  | Stmt _ s p => existsb (fun b => b) [has_ivar s; has_ivar p]
  | Comp _ l => existsb (fun b => b) (map has_ivar l)
  | _ => false
  end.

Fixpoint has_dvar (t : term) : bool :=
  match t with
  | Var k _ => vk_eqb k Dependent
  | Stmt _ s p => existsb (fun b => b) [has_dvar s; has_dvar p]
  | Comp _ l => existsb (fun b => b) (map has_dvar l)
  | _ => false
  end.

Fixpoint has_qvar (t : term) : bool :=
  match t with
  | Var k _ => vk_eqb k Query
  | Stmt _ s p => existsb (fun b => b) [has_qvar s; has_qvar p]
  | Comp _ l => existsb (fun b => b) (map has_qvar l)
  | _ => false
  end.

(* complexity: 1 by default (Term.h l.116), Statement.inl l.19,
   Compound.cpp l.312-314.  An unbounded integer here; the C++ int overflows
   only for terms with more than 2^31-1 parts. *)
Fixpoint complexity (t : term) : Z :=
  match t with
  | Stmt _ s p => 1 + (complexity s + complexity p)
  | Comp _ l => fold_left (fun sum x => sum + x) (map complexity l) 0
  | _ => 1
  end.

(* is_operation: Operation.h l.24; Statement.inl l.26 and l.28-29 (the second
   test can only set a flag that is already set); false otherwise. *)
Fixpoint is_operation (t : term) : bool :=
  match t with
  | Atom op _ => op
  | Stmt _ _ p => is_operation p
  | _ => false
  end.

(* is_higher_order: Statement.inl l.25; false otherwise. *)
Definition is_higher_order (t : term) : bool :=
  match t with Stmt c _ _ => cop_higher_order c | _ => false end.

(* *(indices[0]) of the three index lists of an atomic term: Variables carry
   their index in the list of their own kind only (NarseseParser.cpp l.717-764);
   reading element 0 of an empty vector is undefined behaviour. *)
Definition first_index (which : vkind) (t : term) : res Z :=
  match t with
  | Var k i => if vk_eqb k which then Ok i else UB
  | _ => UB
  end.

Definition is_kind (k : vkind) (t : term) : bool :=
  match t with Var k' _ => vk_eqb k' k | _ => false end.
Definition is_var (t : term) : bool :=
  match t with Var _ _ => true | _ => false end.

(* Comparison of two ints obtained from index cells. *)
Definition cmp_index (f : Z -> Z -> bool) (a b : res Z) : res bool :=
  bind a (fun x => bind b (fun y => Ok (f x y))).

(* Term.inl l.67-79: the atomic case of operator==.  Note l.72 and l.74 read
   this->_vars_independent where the other side reads _vars_query /
   _vars_dependent. *)
Definition atom_eq (t1 t2 : term) : res bool :=
  if is_var t1 || is_var t2 then
    if is_kind Query t1 && is_kind Query t2 then
      cmp_index Z.eqb (first_index Independent t1) (first_index Query t2)
    else if is_kind Dependent t1 && is_kind Dependent t2 then
      cmp_index Z.eqb (first_index Independent t1) (first_index Dependent t2)
    else if is_kind Independent t1 && is_kind Independent t2 then
      cmp_index Z.eqb (first_index Independent t1) (first_index Independent t2)
    else Ok (thash t1 =? thash t2)
  else Ok (thash t1 =? thash t2).

(* Term.inl l.54-112, Term::operator==.  && evaluates left to right and stops
   at the first false (l.87); the component loop stops at the first unequal
   pair (l.100-106). *)
Fixpoint teq (t1 t2 : term) {struct t1} : res bool :=
  if negb (ttype t1 =? ttype t2) then Ok false
  else if negb (thash t1 =? thash t2) then Ok false
  else
    match t1, t2 with
    | Stmt c1 s1 p1, Stmt c2 s2 p2 =>
        bind (teq s1 s2) (fun b1 =>
          if b1 then
            bind (teq p1 p2) (fun b2 =>
              if b2 then Ok (cop_eqb c1 c2) else Ok false)
          else Ok false)
    | Comp c1 l1, Comp c2 l2 =>
        if negb (Z.of_nat (length l1) =? Z.of_nat (length l2)) then Ok false
        else if negb (con_eqb c1 c2) then Ok false
        else
          (fix all2 (l1 l2 : list term) {struct l1} : res bool :=
             match l1, l2 with
             | x :: l1', y :: l2' =>
                 bind (teq x y) (fun b => if b then all2 l1' l2' else Ok false)
             | _, _ => Ok true
             end) l1 l2
    | Stmt _ _ _, Comp _ _ | Comp _ _, Stmt _ _ _ => Ok false
    | _, _ => atom_eq t1 t2
    end.

(* Term.inl l.134-146: the atomic case of operator<; both sides have a
   variable, hence are variables. *)
Definition atom_lt (t1 t2 : term) : bool :=
  match t1, t2 with
  | Var k1 i1, Var k2 i2 =>
      if vk_eqb k1 k2 then i1 <? i2 else thash t1 <? thash t2
  | _, _ => thash t1 <? thash t2
  end.

(* Term.inl l.114-180, Term::operator<.  Copulas and connectors are unscoped
   enums compared by value. *)
Fixpoint tlt (t1 t2 : term) {struct t1} : bool :=
  if negb (thash t1 =? thash t2) then thash t1 <? thash t2
  else
    match has_var t1, has_var t2 with
    | false, false => thash t1 <? thash t2
    | false, true => false
    | true, false => true
    | true, true =>
        if negb (ttype t1 =? ttype t2) then ttype t1 <? ttype t2
        else
          match t1, t2 with
          | Stmt c1 s1 p1, Stmt c2 s2 p2 =>
              if tlt s1 s2 then true
              else if tlt p1 p2 then true
              else cop_code c1 <? cop_code c2
          | Comp c1 l1, Comp c2 l2 =>
              if negb (Z.of_nat (length l1) =? Z.of_nat (length l2))
              then Z.of_nat (length l1) <? Z.of_nat (length l2)
              else if negb (con_eqb c1 c2) then con_code c1 <? con_code c2
              else
                (fix any2 (l1 l2 : list term) {struct l1} : bool :=
                   match l1, l2 with
                   | x :: l1', y :: l2' => if tlt x y then true else any2 l1' l2'
                   | _, _ => false
                   end) l1 l2
          | _, _ => atom_lt t1 t2
          end
    end.
