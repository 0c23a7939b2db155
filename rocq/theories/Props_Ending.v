(* Properties of tables edited by the program and of the end of the program:
   C169-C172. *)
From Coq Require Import ZArith List Bool String.
From Verif Require Import Base Maps Interning InterningSpec InterningCases Ending EndingSpec EndingFacts3 EndingFacts4 EndingCases.
Import ListNotations.
Local Open Scope string_scope.
Local Open Scope Z_scope.

(* ---- C169 ---- *)
Theorem C169_edits_defined : forall w left, course w left ->
  (forall k, exists w', move_on w (RemoveKey k) = Ok w' /\ handles w' = handles w
     /\ forall a, registered w' a <-> registered w a /\ key_of a <> k)
  /\ (forall k, exists w', move_on w (EraseKey k) = Ok w' /\ handles w' = handles w
     /\ forall a, registered w' a <-> registered w a /\ key_of a <> k)
  /\ (forall n, exists w', move_on w (RemoveNamed n) = Ok w' /\ handles w' = handles w
     /\ (forall a, registered w' a <-> registered w a /\ lookup Z.eqb (key_of a) (dict (tab w)) <> Some n)
     /\ forall h, In h (handles w) -> (registered w' (hat h) <-> registered w (hat h) /\ hname h <> n))
  /\ (exists w', move_on w ResetTable = Ok w' /\ handles w' = handles w /\ tab w' = empty_table
     /\ forall a, live w' a <-> live w a /\ (registered w a -> in_hand w a))
  /\ (forall n a, apart w a -> exists w' h, move_on w (Act (Create n a)) = Ok w'
     /\ handles w' = h :: handles w /\ hname h = n)
  /\ (forall i h, nth_error (handles w) i = Some h -> exists w', move_on w (Act (Drop i)) = Ok w'
     /\ handles w' = (firstn i (handles w) ++ skipn (S i) (handles w))%list
     /\ forall a, registered w' a <-> registered w a /\ (a = hat h -> in_hand w' a)).
Proof. exact edits_defined. Qed.
Print Assumptions C169_edits_defined.

Example C169_case : exists left, course (ends edited) left
  /\ map hname (handles (ends edited)) = ["c"; "b"; "a"; "a"; "a"]
  /\ map hat (handles (ends edited)) = [94000000001536; 94000000001024; 94000000000512; 94000000000000; 94000000000000]
  /\ map fst (inv (tab (ends edited))) = ["c"; "a"].
Proof. exact edited_runs. Qed.

(* ---- C170 ---- *)
Theorem C170_one_atom_refuted :
  ~ (forall w left, course w left -> forall h h', In h (handles w) -> In h' (handles w) ->
      (hname h = hname h' <-> hat h = hat h')).
Proof. exact renamed. Qed.
Print Assumptions C170_one_atom_refuted.

(* What is missing: handles whose atoms are no longer in the table. *)
Theorem C170_registered_partial : forall w left, course w left ->
  (forall h h', In h (handles w) -> In h' (handles w) -> registered w (hat h) -> registered w (hat h') ->
     (hname h = hname h' <-> hat h = hat h'))
  /\ (forall n a, apart w a -> exists w' h, move_on w (Act (Create n a)) = Ok w'
        /\ handles w' = h :: handles w /\ hname h = n /\ registered w' (hat h)
        /\ forall h', In h' (handles w) -> (hat h' = hat h <-> registered w (hat h') /\ hname h' = n))
  /\ (forall m w' a, proper w m -> move_on w m = Ok w' -> live w a -> ~ registered w a -> ~ registered w' a).
Proof. exact edited_names. Qed.
Print Assumptions C170_registered_partial.

Example C170_case : exists left h h', course (ends edited) left
  /\ In h (handles (ends edited)) /\ In h' (handles (ends edited))
  /\ registered (ends edited) (hat h) /\ registered (ends edited) (hat h') /\ hname h <> hname h'
  /\ apart (ends edited) 94000000002048 /\ live (ends edited) 94000000001024.
Proof. exact two_registered. Qed.

(* ---- C171 ---- *)
Theorem C171_all_freed_refuted :
  ~ (forall w left w', course w left -> handles w = [] -> finish_table w = Ok w' -> forall a, ~ live w' a).
Proof. exact not_all_freed. Qed.
Print Assumptions C171_all_freed_refuted.

(* What is missing: atoms that were registered and in hand when the program
   emptied the table. *)
Theorem C171_left_partial : forall w left, course w left ->
  (forall a, on_heap w a <-> registered w a \/ left a)
  /\ (forall a, left a -> ~ registered w a)
  /\ exists w', finish_table w = Ok w' /\ handles w' = handles w
       /\ (forall a, on_heap w' a <-> left a \/ (registered w a /\ in_hand w a))
       /\ (handles w = [] -> forall a, live w' a <-> left a).
Proof. exact left_behind. Qed.
Print Assumptions C171_left_partial.

(* Programs that leave the table alone. *)
Theorem C171_unedited_partial : forall w w', history no_op apart w -> finish_table w = Ok w' ->
  (forall a, on_heap w' a <-> in_hand w a) /\ (handles w = [] -> forall a, ~ live w' a).
Proof. exact nothing_behind. Qed.
Print Assumptions C171_unedited_partial.

(* What is missing: as above.  Once the object of an unknown key has been asked
   for, the end of the program is undefined. *)
Theorem C171_null_partial : forall w k, lookup Z.eqb k (objs (tab w)) = None ->
  finish_table (with_tab w (snd (get_object (tab w) k))) = UB.
Proof. exact null_by_asking. Qed.
Print Assumptions C171_null_partial.

Example C171_null_case : lookup Z.eqb 77 (objs (tab (ends orphan))) = None.
Proof. vm_compute. reflexivity. Qed.

Example C171_case : exists left, course (ends orphan) left /\ handles (ends orphan) = [] /\ left 94000000000000.
Proof. exact orphan_runs. Qed.

(* ---- C172 ---- *)
Theorem C172_late_refuted :
  ~ (forall w w' i, history no_op apart w -> finish_table w = Ok w' ->
      (i < List.length (handles w))%nat -> exists w2, late_act w' (Drop i) = Ok w2).
Proof. exact not_destroyed_late. Qed.
Print Assumptions C172_late_refuted.

(* What is missing: runs after which an atom has one pTerm left and had more. *)
Theorem C172_late_partial : forall w left w' is, course w left -> finish_table w = Ok w' ->
  takes is (List.length (handles w)) ->
  (kept w' (without is (handles w)) ->
     exists w2, late_all w' (map Drop is) = Ok w2 /\ handles w2 = without is (handles w))
  /\ (~ kept w' (without is (handles w)) -> late_all w' (map Drop is) = UB).
Proof. exact late_exact. Qed.
Print Assumptions C172_late_partial.

Theorem C172_unedited_partial : forall w w' is, history no_op apart w -> finish_table w = Ok w' ->
  takes is (List.length (handles w)) ->
  ((forall h, In h (handles w) -> exists h', In h' (without is (handles w)) /\ hat h' = hat h) ->
     exists w2, late_all w' (map Drop is) = Ok w2 /\ handles w2 = without is (handles w))
  /\ (~ (forall h, In h (handles w) -> exists h', In h' (without is (handles w)) /\ hat h' = hat h) ->
     late_all w' (map Drop is) = UB)
  /\ (without is (handles w) = [] -> handles w <> [] -> late_all w' (map Drop is) = UB).
Proof. exact late_unedited. Qed.
Print Assumptions C172_unedited_partial.

(* What is missing: as above.  No run in which a name is still asked for ends. *)
Theorem C172_names_partial : forall xs w w' n a, In (Create n a) xs \/ In (ParseOp n a) xs -> late_all w xs <> Ok w'.
Proof. exact no_late_names. Qed.
Print Assumptions C172_names_partial.

Example C172_names_case : In (Create "a" 5) [Drop 0; Create "a" 5].
Proof. exact (or_intror (or_introl eq_refl)). Qed.

Example C172_case : history no_op apart (result overwrite)
  /\ map hname (handles (result overwrite)) = ["b"; "b"] /\ takes [0; 0]%nat (List.length (handles (result overwrite)))
  /\ without [0; 0]%nat (handles (result overwrite)) = []
  /\ exists w', finish_table (result overwrite) = Ok w' /\ map snd (held w') = [94000000000512]
     /\ late_all w' [Drop 0; Drop 0] = UB /\ late_all w' [Drop 0] <> UB.
Proof. exact ordinary_runs. Qed.
