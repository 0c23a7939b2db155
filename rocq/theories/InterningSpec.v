(* Vocabulary for the properties of the symbol table. *)
From Coq Require Import ZArith List Bool String.
From Verif Require Import Base Maps Interning.
Import ListNotations.
Local Open Scope Z_scope.

(* The calls that only ask. *)
Inductive lookup_call : call -> Prop :=
| lk_get k : lookup_call (Get k)
| lk_object k : lookup_call (GetObject k)
| lk_name n : lookup_call (GetByName n)
| lk_check k : lookup_call (Check k)
| lk_check_name n : lookup_call (CheckByName n)
| lk_count k : lookup_call (CheckCount k).

(* What is registered in a table: keys with names, keys with objects, names
   with keys, keys with counts. *)
Definition same_entries (t t' : table) : Prop :=
  (forall k, lookup Z.eqb k (dict t') = lookup Z.eqb k (dict t))
  /\ (forall k, lookup Z.eqb k (objs t') = lookup Z.eqb k (objs t))
  /\ (forall n, lookup String.eqb n (inv t') = lookup String.eqb n (inv t))
  /\ (forall k, lookup Z.eqb k (cnt t') = lookup Z.eqb k (cnt t)).

(* Calls that register the key k under the name n or give it back. *)
Inductive own_call (k : Z) (n : string) : call -> Prop :=
| own_put o : own_call k n (Put k n o)
| own_erase : own_call k n (Erase k).

(* Calls about other keys and other names.  Asking for an unknown name
   registers it for the key 0, asking for an unknown key registers it with the
   empty name. *)
Inductive side_call (k : Z) (n : string) : call -> Prop :=
| side_put k' n' o : k' <> k -> n' <> n -> side_call k n (Put k' n' o)
| side_get k' : k' <> k -> n <> EmptyString -> side_call k n (Get k')
| side_object k' : k' <> k -> side_call k n (GetObject k')
| side_name n' : n' <> n -> k <> 0 -> side_call k n (GetByName n')
| side_check k' : side_call k n (Check k')
| side_check_name n' : side_call k n (CheckByName n')
| side_count k' : side_call k n (CheckCount k')
| side_remove k' : k' <> k -> side_call k n (Remove k')
| side_remove_name n' : n' <> n -> side_call k n (RemoveByName n')
| side_erase k' : k' <> k -> side_call k n (Erase k').

(* Registrations of k not yet given back. *)
Fixpoint balance (k : Z) (b : Z) (cs : list call) : Z :=
  match cs with
  | [] => b
  | Put k' _ _ :: cs' => balance k (if k' =? k then b + 1 else b) cs'
  | Erase k' :: cs' => balance k (if k' =? k then Z.max 0 (b - 1) else b) cs'
  | _ :: cs' => balance k b cs'
  end.

(* The object of the last registration of k. *)
Fixpoint last_object (k : Z) (p : Z) (cs : list call) : Z :=
  match cs with
  | [] => p
  | Put k' _ o :: cs' => last_object k (if k' =? k then o else p) cs'
  | _ :: cs' => last_object k p cs'
  end.

(* Calls that change registrations. *)
Inductive update_call : call -> Prop :=
| up_put k n o : update_call (Put k n o)
| up_remove k : update_call (Remove k)
| up_remove_name n : update_call (RemoveByName n)
| up_erase k : update_call (Erase k)
| up_reset alone : update_call (Reset alone).

(* Looking up a key's name leads back to the key and vice versa. *)
Definition inverse_tables (t : table) : Prop :=
  forall k n, lookup Z.eqb k (dict t) = Some n <-> lookup String.eqb n (inv t) = Some k.

(* No put gives a registered key a second name or a registered name a second key. *)
Fixpoint one_to_one (t : table) (cs : list call) : Prop :=
  match cs with
  | [] => True
  | c :: cs' =>
      (match c with
       | Put k n _ => (forall n', lookup Z.eqb k (dict t) = Some n' -> n' = n)
                      /\ (forall k', lookup String.eqb n (inv t) = Some k' -> k' = k)
       | _ => True
       end) /\ forall t', after t c = Ok t' -> one_to_one t' cs'
  end.

(* A call does not bring a null pointer into the table. *)
Definition no_null (c : call) : Prop :=
  match c with Put _ _ o => o <> 0 | GetObject _ => False | _ => True end.

(* ---- histories of handles ---- *)

(* An atom lives while a pTerm points to it. *)
Definition live (w : world) (a : Z) : Prop := In a (map snd (held w)) \/ In a (map hat (handles w)).

(* Address a differs modulo 2^32 from those of the living atoms. *)
Definition apart (w : world) (a : Z) : Prop :=
  forall a', live w a' -> a mod 4294967296 <> a' mod 4294967296.

(* Runs of the operations in [ops]; new atoms are placed according to [place]. *)
Inductive history (ops : act -> Prop) (place : world -> Z -> Prop) : world -> Prop :=
| hist_start : history ops place world0
| hist_step w x w' :
    history ops place w -> ops x ->
    (forall n a, x = Create n a \/ x = ParseOp n a -> place w a) ->
    act_on w x = Ok w' -> history ops place w'.

(* Creating, copying and destroying handles. *)
Definition basic (x : act) : Prop :=
  match x with Create _ _ | Copy _ | Drop _ => True | _ => False end.

(* Also overwriting handles, but not the parser's operations. *)
Definition no_op (x : act) : Prop := match x with ParseOp _ _ => False | _ => True end.

(* A new atom is anywhere no living atom is. *)
Definition free_place (w : world) (a : Z) : Prop := ~ live w a.
