(* Properties of the objects that the symbol table owns *)
From Coq Require Import ZArith List Bool String Permutation.
From Verif Require Import Base Maps Interning InterningSpec TableSpec TableFacts.
Import ListNotations.
Local Open Scope string_scope.
Local Open Scope list_scope.
Local Open Scope Z_scope.

(* ---- C190 ---- *)
(* A second object for a key replaces the first, which is never deleted. *)
Theorem C190_lost_refuted : exists cs t p, after_all empty_table cs = Ok t /\ In p (real (flat_map given cs)) /\
  NoDup (flat_map given cs) /\ holding t = [] /\ ~ In p (freed_all empty_table cs).
Proof. exact object_lost. Qed.
Print Assumptions C190_lost_refuted.

(* What is missing: runs that replace an object, or reset the table while an
   object is in use elsewhere. *)
Theorem C190_freed_partial : forall cs t, careful empty_table cs -> after_all empty_table cs = Ok t ->
  Permutation (real (flat_map given cs)) (holding t ++ real (freed_all empty_table cs)).
Proof. exact deleted_all. Qed.
Print Assumptions C190_freed_partial.

(* What is missing: that every object is deleted.  None is deleted twice, none
   while the table still holds it, and none that it was not given. *)
Theorem C190_once_partial : forall cs t, after_all empty_table cs = Ok t -> NoDup (real (flat_map given cs)) ->
  NoDup (holding t ++ real (freed_all empty_table cs)) /\
  incl (holding t ++ real (freed_all empty_table cs)) (flat_map given cs).
Proof. exact deleted_once. Qed.
Print Assumptions C190_once_partial.

(* What is missing: objects that are used elsewhere. *)
Theorem C190_reset_partial : forall t alone, ~ In 0 (map snd (objs t)) ->
  exists del, reset t alone = Ok (empty_table, del) /\
    forall p, In p del <-> In p (map snd (objs t)) /\ alone p = true.
Proof. exact reset_exact. Qed.
Print Assumptions C190_reset_partial.

Example C190_case : exists t,
  after_all empty_table [Put 1 "a" 5; Put 2 "b" 6; GetObject 3; Erase 1; Put 1 "c" 7; RemoveByName "b"] = Ok t /\
  careful empty_table [Put 1 "a" 5; Put 2 "b" 6; GetObject 3; Erase 1; Put 1 "c" 7; RemoveByName "b"] /\
  holding t = [7] /\
  freed_all empty_table [Put 1 "a" 5; Put 2 "b" 6; GetObject 3; Erase 1; Put 1 "c" 7; RemoveByName "b"] = [5; 6].
Proof. exact table_run. Qed.

(* ---- C83 ---- *)
(* What is missing: tables without null pointers. *)
Theorem C83_null_partial : forall t alone, In 0 (map snd (objs t)) -> after t (Reset alone) = UB.
Proof. exact reset_null. Qed.
Print Assumptions C83_null_partial.

Example C83_null_case : In 0 (map snd (objs (Tab [] [(5, 0)] [] []))).
Proof. exact (or_introl eq_refl). Qed.

(* ---- C191 ---- *)
Theorem C191_results : forall t,
  (forall k, fst (fst (remove t k)) = check t k) /\
  (forall n, fst (fst (remove_by_name t n)) = check_by_name t n) /\
  (forall k, fst (fst (erase t k)) = match lookup Z.eqb k (cnt t) with Some c => 0 <? c | None => false end) /\
  (forall n k, lookup String.eqb n (inv t) = Some k -> check t k = false -> snd (remove_by_name t n) = []).
Proof. exact call_results. Qed.
Print Assumptions C191_results.

Example C191_case : fst (fst (remove_by_name (Tab [] [] [("n", 3)] []) "n")) = true /\
  snd (remove_by_name (Tab [] [] [("n", 3)] []) "n") = [].
Proof. exact (conj eq_refl eq_refl). Qed.
