(* Properties of the symbol table: C29-C35, C83-C85. *)
From Coq Require Import ZArith List Bool String Ascii.
From Verif Require Import Base Term Maps Interning InterningSpec InterningFacts InterningFacts2 InterningCases
  InterningSpec2 InterningFacts4 InterningCases2.
Import ListNotations.
Local Open Scope string_scope.
Local Open Scope Z_scope.

(* ---- C29 ---- *)
Theorem C29_one_atom_per_name : forall w, history no_op apart w ->
  (forall h h', In h (handles w) -> In h' (handles w) -> (hname h = hname h' <-> hat h = hat h'))
  /\ (forall n a, apart w a -> exists w' h, act_on w (Create n a) = Ok w'
        /\ handles w' = h :: handles w /\ hname h = n)
  /\ (forall i, (i < List.length (handles w))%nat -> exists w', act_on w (Drop i) = Ok w'
        /\ handles w' = remove_nth i (handles w)).
Proof. exact one_atom_per_name. Qed.
Print Assumptions C29_one_atom_per_name.

Example C29_case : map hname (handles (result story)) = ["d"; "c"; "b"]
  /\ history no_op apart (result story).
Proof. exact story_handles. Qed.

(* ---- C30 ---- *)
Theorem C30_any_placement_refuted :
  ~ (forall w, history basic free_place w -> forall h h', In h (handles w) -> In h' (handles w) ->
      (hname h = hname h' <-> hat h = hat h')).
Proof. exact placement_matters. Qed.
Print Assumptions C30_any_placement_refuted.

(* A request for a name with a living handle returns the atom of another name. *)
Theorem C30_wrong_atom_refuted : exists w w', history basic free_place w /\
  In (Hd 94000000000000 "a") (handles w) /\ free_place w 1 /\
  act_on w (Create "a" 1) = Ok w' /\ hd_error (handles w') = Some (Hd 94004294967296 "a").
Proof. exact placement_changes_atom. Qed.
Print Assumptions C30_wrong_atom_refuted.

(* What is missing: atoms 4 GiB or more apart. *)
Theorem C30_window_partial : forall base w, history no_op (window base) w ->
  (forall h h', In h (handles w) -> In h' (handles w) -> (hname h = hname h' <-> hat h = hat h'))
  /\ (forall n a, window base w a -> exists w' h, act_on w (Create n a) = Ok w'
        /\ handles w' = h :: handles w /\ hname h = n)
  /\ (forall i, (i < List.length (handles w))%nat -> exists w', act_on w (Drop i) = Ok w'
        /\ handles w' = remove_nth i (handles w)).
Proof. exact window_names. Qed.
Print Assumptions C30_window_partial.

Example C30_case : history no_op (window base0) (result near) /\
  map hname (handles (result near)) = ["c"; "b"; "b"].
Proof. exact near_history. Qed.

(* ---- C31 ---- *)
Theorem C31_no_leak : forall w, history basic apart w ->
  (forall n, check_by_name (tab w) n = true <-> exists h, In h (handles w) /\ hname h = n)
  /\ (forall k, check (tab w) k = true <-> exists h, In h (handles w) /\ key_of (hat h) = k)
  /\ (forall k p, lookup Z.eqb k (objs (tab w)) = Some p ->
        exists h, In h (handles w) /\ key_of (hat h) = k /\ lookup Z.eqb p (held w) = Some (hat h))
  /\ (forall k c, lookup Z.eqb k (cnt (tab w)) = Some c -> c = 1 /\ check (tab w) k = true)
  /\ (forall a, live w a <-> exists h, In h (handles w) /\ hat h = a)
  /\ (handles w = [] -> tab w = empty_table /\ held w = []).
Proof. exact table_exact. Qed.
Print Assumptions C31_no_leak.

Example C31_case : history basic apart (result story).
Proof. exact story_history. Qed.

(* ---- C32 ---- *)
Theorem C32_lookups_refuted :
  ~ (forall t c t', lookup_call c -> after t c = Ok t' -> same_entries t t').
Proof. exact lookup_adds. Qed.
Print Assumptions C32_lookups_refuted.

(* What is missing: lookups of unknown keys and names. *)
Theorem C32_lookups_partial : forall t,
  (forall k n, lookup Z.eqb k (dict t) = Some n -> after t (Get k) = Ok t)
  /\ (forall k p, lookup Z.eqb k (objs t) = Some p -> after t (GetObject k) = Ok t)
  /\ (forall n k, lookup String.eqb n (inv t) = Some k -> after t (GetByName n) = Ok t)
  /\ (forall k, after t (Check k) = Ok t) /\ (forall n, after t (CheckByName n) = Ok t)
  /\ (forall k c, lookup Z.eqb k (cnt t) = Some c -> c <> 0 -> after t (CheckCount k) = Ok t).
Proof. exact known_lookup_neutral. Qed.
Print Assumptions C32_lookups_partial.

Example C32_case : exists t, after_all empty_table registrations = Ok t
  /\ lookup Z.eqb 3 (dict t) = Some "x" /\ lookup Z.eqb 3 (objs t) = Some 13
  /\ lookup String.eqb "x" (inv t) = Some 3 /\ exists c, lookup Z.eqb 3 (cnt t) = Some c /\ c <> 0.
Proof. exact known_case. Qed.

(* ---- C33 ---- *)
Theorem C33_registration_counted : forall k n cs,
  Forall (fun c => own_call k n c \/ side_call k n c) cs ->
  exists t, after_all empty_table cs = Ok t /\
    let b := balance k 0 cs in
    (0 < b -> lookup Z.eqb k (dict t) = Some n /\ lookup String.eqb n (inv t) = Some k
       /\ lookup Z.eqb k (objs t) = Some (last_object k 0 cs) /\ lookup Z.eqb k (cnt t) = Some b)
    /\ (b = 0 -> lookup Z.eqb k (dict t) = None /\ lookup String.eqb n (inv t) = None
       /\ lookup Z.eqb k (objs t) = None /\ lookup Z.eqb k (cnt t) = None)
    /\ fst (fst (erase t k)) = (0 <? b).
Proof. exact registration_counted. Qed.
Print Assumptions C33_registration_counted.

Example C33_case :
  Forall (fun c => own_call 3 "x" c \/ side_call 3 "x" c) registrations
  /\ balance 3 0 registrations = 1 /\ last_object 3 0 registrations = 13.
Proof. exact registrations_ok. Qed.

(* ---- C34 ---- *)
Theorem C34_inverse_refuted :
  ~ (forall cs t, Forall update_call cs -> after_all empty_table cs = Ok t -> inverse_tables t).
Proof. exact tables_not_inverse. Qed.
Print Assumptions C34_inverse_refuted.

(* What is missing: calls of put that give a registered key a second name or a
   registered name a second key. *)
Theorem C34_inverse_partial : forall cs t, Forall update_call cs -> one_to_one empty_table cs ->
  after_all empty_table cs = Ok t -> inverse_tables t.
Proof. exact tables_inverse. Qed.
Print Assumptions C34_inverse_partial.

Example C34_case : Forall update_call paired /\ one_to_one empty_table paired
  /\ exists t, after_all empty_table paired = Ok t /\ lookup Z.eqb 5 (dict t) = Some "y".
Proof. exact paired_ok. Qed.

(* ---- C35 ---- *)
Theorem C35_same_operation_refuted :
  ~ (forall w, history any apart w -> forall h h', In h (handles w) -> In h' (handles w) ->
      hname h = hname h' -> teq (Atom true (hat h)) (Atom true (hat h')) = Ok true).
Proof. exact operations_differ. Qed.
Print Assumptions C35_same_operation_refuted.

Theorem C35_defined_refuted :
  ~ (forall w n a, history any apart w -> apart w a -> exists w', act_on w (ParseOp n a) = Ok w').
Proof. exact operation_undefined. Qed.
Print Assumptions C35_defined_refuted.

(* What is missing: parsing ^n while there is a handle of one of n and ^n
   only; C35_next_partial says what that does. *)
Theorem C35_matched_partial : forall w, op_history w ->
  forall h h', In h (handles w) -> In h' (handles w) ->
    (hname h = hname h' <-> hat h = hat h') /\
    (hname h = hname h' -> teq (Atom true (hat h)) (Atom true (hat h')) = Ok true).
Proof. exact (fun w H => proj1 (op_history_right w H)). Qed.
Print Assumptions C35_matched_partial.

Theorem C35_next_partial : forall w n a, op_history w -> apart w a ->
  (matched w n -> exists w' h, act_on w (ParseOp n a) = Ok w' /\ handles w' = h :: handles w
     /\ hname h = String "^"%char n
     /\ (forall h', In h' (handles w) -> (hname h' = hname h <-> hat h' = hat h)))
  /\ (held_name w n -> ~ held_name w (String "^"%char n) ->
      act_on w (ParseOp n a) = UB
      \/ exists w' h h', act_on w (ParseOp n a) = Ok w' /\ handles w' = h :: handles w
           /\ hname h = String "^"%char n /\ In h' (handles w) /\ hname h' <> hname h /\ hat h' = hat h)
  /\ (~ held_name w n -> held_name w (String "^"%char n) ->
      exists w' h h', act_on w (ParseOp n a) = Ok w' /\ handles w' = h :: handles w
           /\ hname h = String "^"%char n /\ In h' (handles w) /\ hname h' = hname h /\ hat h' <> hat h).
Proof. exact op_next. Qed.
Print Assumptions C35_next_partial.

Example C35_case : op_history (result ops_story) /\
  map hname (handles (result ops_story)) = ["^go"; "go"; "^go"] /\
  map hat (handles (result ops_story)) = [94000000000000; 94000000000512; 94000000000000].
Proof. exact ops_case. Qed.

(* ---- C83 ---- *)
Theorem C83_reset_refuted :
  ~ (forall cs, (forall k n o, In (Put k n o) cs -> o <> 0) -> exists t, after_all empty_table cs = Ok t).
Proof. exact reset_undefined. Qed.
Print Assumptions C83_reset_refuted.

(* What is missing: runs that ask for the object of an unknown key. *)
Theorem C83_reset_partial : forall cs, Forall no_null cs -> exists t, after_all empty_table cs = Ok t.
Proof. exact reset_defined. Qed.
Print Assumptions C83_reset_partial.

Example C83_case : Forall no_null [Put 3 "x" 11; Get 9; GetByName "q"; Reset (fun _ => true); Put 1 "a" 2; Reset (fun _ => false)].
Proof. exact no_null_case. Qed.

(* ---- C84 ---- *)
Theorem C84_overwriting_refuted :
  ~ (forall w, history no_op apart w ->
      forall n, check_by_name (tab w) n = true <-> exists h, In h (handles w) /\ hname h = n).
Proof. exact overwriting_leaks. Qed.
Print Assumptions C84_overwriting_refuted.

(* What is missing: names whose last handle was overwritten; they and their
   atoms stay until they are asked for again. *)
Theorem C84_overwriting_partial : forall w lost, overwriting w lost ->
  (forall n, check_by_name (tab w) n = true <-> held_name w n \/ In n lost)
  /\ (forall n, In n lost -> ~ held_name w n)
  /\ (forall a, live w a <-> exists k n, lookup Z.eqb k (dict (tab w)) = Some n /\ key_of a = k
        /\ exists p, lookup Z.eqb k (objs (tab w)) = Some p /\ lookup Z.eqb p (held w) = Some a)
  /\ (lost = [] -> handles w = [] -> tab w = empty_table /\ held w = []).
Proof. exact overwriting_exact. Qed.
Print Assumptions C84_overwriting_partial.

(* All histories are covered. *)
Theorem C84_covered_partial : forall w, history no_op apart w -> exists lost, overwriting w lost.
Proof. exact overwriting_all. Qed.
Print Assumptions C84_covered_partial.

Example C84_case : overwriting (result overwrite) ["a"] /\ map hname (handles (result overwrite)) = ["b"; "b"].
Proof. exact overwriting_case. Qed.

(* ---- C85 ---- *)
Theorem C85_operation_known_refuted :
  ~ (forall w, history any apart w -> forall h, In h (handles w) -> check_by_name (tab w) (hname h) = true).
Proof. exact operation_forgotten. Qed.
Print Assumptions C85_operation_known_refuted.

(* What is missing: parsing ^n while there is a handle of one of n and ^n only. *)
Theorem C85_matched_partial : forall w, op_history w ->
  (forall n, check_by_name (tab w) n = true <-> held_name w n)
  /\ (handles w = [] -> tab w = empty_table /\ held w = []).
Proof. exact (fun w H => proj2 (op_history_right w H)). Qed.
Print Assumptions C85_matched_partial.

Example C85_case : op_history (result ops_story) /\ map hname (handles (result ops_story)) = ["^go"; "go"; "^go"].
Proof. exact (conj (proj1 ops_case) (proj1 (proj2 ops_case))). Qed.
