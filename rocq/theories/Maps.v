(* Finite maps as association lists: std::map as used by the interpreter. *)
From Coq Require Import ZArith List Bool.
Import ListNotations.

Section Maps.
Context {K V : Type}.
Variable eqb : K -> K -> bool.

(* std::map::find *)
Fixpoint lookup (k : K) (m : list (K * V)) : option V :=
  match m with
  | [] => None
  | (k', v) :: m' => if eqb k k' then Some v else lookup k m'
  end.

(* std::map::erase(key) *)
Definition unset (k : K) (m : list (K * V)) : list (K * V) :=
  filter (fun kv => negb (eqb k (fst kv))) m.

(* m[key] = value *)
Definition set (k : K) (v : V) (m : list (K * V)) : list (K * V) := (k, v) :: unset k m.

(* std::map::count(key) == 1 *)
Definition has (k : K) (m : list (K * V)) : bool :=
  match lookup k m with Some _ => true | None => false end.

End Maps.
