(* Specification vocabulary for the objects that the symbol table owns. *)
From Coq Require Import ZArith List Bool String.
From Verif Require Import Base Maps Interning.
Import ListNotations.
Local Open Scope Z_scope.

(* The objects that a call hands to the table *)
Definition given (c : call) : list Z := match c with Put _ _ o => [o] | _ => [] end.

(* The objects that a call deletes *)
Definition freed (t : table) (c : call) : list Z :=
  match c with
  | Remove k => snd (remove t k)
  | RemoveByName n => snd (remove_by_name t n)
  | Erase k => snd (erase t k)
  | Reset alone => match reset t alone with Ok r => snd r | _ => [] end
  | _ => []
  end.

(* The objects deleted in a run *)
Fixpoint freed_all (t : table) (cs : list call) : list Z :=
  match cs with
  | [] => []
  | c :: cs' => freed t c ++ match after t c with Ok t' => freed_all t' cs' | _ => [] end
  end.

(* delete does nothing with a null pointer *)
Definition real (l : list Z) : list Z := filter (fun p => negb (p =? 0)) l.

(* The objects that the table holds *)
Definition holding (t : table) : list Z := real (map snd (objs t)).

(* No key is given a second object while it has one, and at every reset the
   table is the only one to use its objects *)
Fixpoint careful (t : table) (cs : list call) : Prop :=
  match cs with
  | [] => True
  | c :: cs' =>
      match c with
      | Put k _ _ => lookup Z.eqb k (objs t) = None
      | Reset alone => forall p, In p (holding t) -> alone p = true
      | _ => True
      end /\ match after t c with Ok t' => careful t' cs' | _ => True end
  end.
