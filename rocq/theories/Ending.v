(* The table of atoms emptied or edited by the program itself and the end of
   the program: Interpreter/include/Interpreter.hpp l.71-172 with the
   destructors they run, Interpreter/src/Interpreter.cpp l.9. *)
From Coq Require Import ZArith List Bool String.
From Verif Require Import Base Maps Interning.
Import ListNotations.
Local Open Scope Z_scope.

(* [delete ptr] of Interpreter.hpp l.85, l.110: the destructor of the pTerm at p
   (Term.inl l.44-52, Term.cpp l.42-47), then its storage. *)
Definition delete_pterm (w : world) (p : Z) : res world :=
  if p =? 0 then Ok w
  else match lookup Z.eqb p (held w) with
       | None => UB
       | Some a =>
           bind (if Nat.eqb (use_count w a) 2 then remove_atom 3 w (key_of a) else Ok w)
             (fun w' => Ok (World (tab w') (unset Z.eqb p (held w')) (next w') (handles w')))
       end.

(* Interpreter.hpp l.95-119: remove_by_name in a world with handles *)
Definition remove_named (w : world) (n : string) : res world :=
  let t := tab w in
  match lookup String.eqb n (inv t) with
  | None => Ok w
  | Some k =>
      let inv' := unset String.eqb n (inv t) in
      if check t k then
        let w1 := with_tab w (Tab (unset Z.eqb k (dict t)) (objs t) inv' (unset Z.eqb k (cnt t))) in
        match lookup Z.eqb k (objs t) with
        | None => Ok w1
        | Some p =>
            bind (delete_pterm w1 p) (fun w2 =>
              let t2 := tab w2 in
              Ok (with_tab w2 (Tab (dict t2) (unset Z.eqb k (objs t2)) (inv t2) (cnt t2))))
        end
      else Ok (with_tab w (Tab (dict t) (objs t) inv' (cnt t)))
  end.

(* Interpreter.hpp l.121-136: erase in a world with handles *)
Definition erase_key (w : world) (k : Z) : res world :=
  let (c, t1) := check_count (tab w) k in
  if 0 <? c then
    let w2 := with_tab w (Tab (dict t1) (objs t1) (inv t1) (set Z.eqb k (c - 1) (cnt t1))) in
    if c - 1 =? 0 then remove_atom 3 w2 k else Ok w2
  else Ok (with_tab w t1).

(* Interpreter.hpp l.153-160: the loop of reset.  A pTerm is deleted if it is
   the only one of its atom; its destructor then finds a use count of 1 and
   leaves the table alone.  The entries are visited in the order of the list,
   the code visits them in the order of their keys. *)
Fixpoint sweep (l : list (Z * Z)) (w : world) : res world :=
  match l with
  | [] => Ok w
  | (_, p) :: l' =>
      if p =? 0 then UB
      else match lookup Z.eqb p (held w) with
           | None => UB
           | Some a =>
               sweep l' (if Nat.eqb (use_count w a) 1
                         then World (tab w) (unset Z.eqb p (held w)) (next w) (handles w) else w)
           end
  end.

(* Interpreter.hpp l.150-165: reset in a world with handles *)
Definition reset_world (w : world) : res world :=
  bind (sweep (objs (tab w)) w) (fun w' => Ok (with_tab w' empty_table)).

(* What a program does while the global table exists: what it does with
   handles, and the members of Interpreter it may call. *)
Inductive move : Type :=
| Act (x : act)
| RemoveKey (k : Z)
| RemoveNamed (n : string)
| EraseKey (k : Z)
| ResetTable.

Definition move_on (w : world) (m : move) : res world :=
  match m with
  | Act x => act_on w x
  | RemoveKey k => remove_atom 3 w k
  | RemoveNamed n => remove_named w n
  | EraseKey k => erase_key w k
  | ResetTable => reset_world w
  end.

(* Interpreter.hpp l.167-170: the destructor of the global table
   (Interpreter.cpp l.9), run at the end of the program: reset, then the maps
   are destroyed. *)
Definition finish_table (w : world) : res world := reset_world w.

(* What still happens to handles after that: a handle of static storage
   duration that was constructed before the table is destroyed after it.  Any
   use of the destroyed maps is undefined: Term::create (Term.cpp l.18-40), the
   parser (NarseseParser.cpp l.421-475) and the destructor of a pTerm with use
   count 2 (Term.inl l.44-52). *)
Definition late_act (w : world) (x : act) : res world :=
  match x with
  | Create _ _ | ParseOp _ _ => UB
  | Copy _ | Assign _ _ => act_on w x
  | Drop i =>
      match nth_error (handles w) i with
      | None => Throw
      | Some h =>
          if Nat.eqb (use_count w (hat h)) 2 then UB
          else Ok (World (tab w) (held w) (next w) (remove_nth i (handles w)))
      end
  end.

Fixpoint late_all (w : world) (xs : list act) : res world :=
  match xs with
  | [] => Ok w
  | x :: xs' => bind (late_act w x) (fun w' => late_all w' xs')
  end.
