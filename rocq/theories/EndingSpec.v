(* Vocabulary for the properties of edited tables and of the end of the program. *)
From Coq Require Import ZArith List Bool String.
From Verif Require Import Base Maps Interning InterningSpec Ending.
Import ListNotations.
Local Open Scope Z_scope.

(* The table has a pTerm to the atom at a. *)
Definition registered (w : world) (a : Z) : Prop :=
  exists k p, lookup Z.eqb k (objs (tab w)) = Some p /\ lookup Z.eqb p (held w) = Some a.

(* The program has a handle to the atom at a. *)
Definition in_hand (w : world) (a : Z) : Prop := In a (map hat (handles w)).

(* Some pTerm on the heap, in the table or not, points to the atom at a. *)
Definition on_heap (w : world) (a : Z) : Prop := In a (map snd (held w)).

(* Moves with which a program may go on: no operations parsed (C35, C85),
   atoms placed apart modulo 2^32 (C30). *)
Definition proper (w : world) (m : move) : Prop :=
  match m with
  | Act x => no_op x /\ forall n a, x = Create n a \/ x = ParseOp n a -> apart w a
  | _ => True
  end.

(* Programs, with the atoms that were registered and in hand when the table
   was emptied. *)
Inductive course : world -> (Z -> Prop) -> Prop :=
| course_start : course world0 (fun _ => False)
| course_move w left m w' :
    course w left -> proper w m -> m <> ResetTable -> move_on w m = Ok w' -> course w' left
| course_reset w left w' :
    course w left -> move_on w ResetTable = Ok w' ->
    course w' (fun a => left a \/ (registered w a /\ in_hand w a)).

(* The handles that remain when the i-th of the list, then the j-th of the
   rest and so on are taken away. *)
Fixpoint without (is : list nat) (l : list handle) : list handle :=
  match is with [] => l | i :: is' => without is' (firstn i l ++ skipn (S i) l) end.

(* Each of these takes one away. *)
Fixpoint takes (is : list nat) (n : nat) : Prop :=
  match is with [] => True | i :: is' => (i < n)%nat /\ takes is' (pred n) end.

(* Every atom with two or more pTerms has two or more when only the handles hs
   are left. *)
Definition kept (w : world) (hs : list handle) : Prop :=
  forall a, (2 <= count_occ Z.eq_dec (map snd (held w)) a + count_occ Z.eq_dec (map hat (handles w)) a)%nat ->
    (2 <= count_occ Z.eq_dec (map snd (held w)) a + count_occ Z.eq_dec (map hat hs) a)%nat.
