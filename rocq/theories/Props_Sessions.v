(* Properties of sessions: reading, keeping, printing and letting go *)
From Coq Require Import ZArith String List Bool.
From Verif Require Import Base Enums Maps Term Compound CompoundFacts Parser Actions ActionsCases Printer PrinterSpec Forms.
From Verif Require Import Sessions SessionsSpec SessionsFacts2 SessionsFacts3 SessionsFacts4 SessionsFacts5 SessionsCases.
From Verif Require Import Interning InterningSpec InterningCases.
Import ListNotations.
Open Scope string_scope.
Open Scope list_scope.
Open Scope Z_scope.

(* ---- C122 ---- *)
(* Of two atoms ^go one goes, and the name ^go is forgotten while the other lives. *)
Theorem C122_names_refuted : exists w n a, history no_assign well_placed w /\ In (Hd a n) (handles w) /\
  check_by_name (tab w) n = false /\ lookup Z.eqb (key_of a) (dict (tab w)) = Some n.
Proof. exact operator_forgotten. Qed.
Print Assumptions C122_names_refuted.

(* Missing: that names of operators are known as long as there is a handle. *)
Theorem C122_names_partial : forall w, history no_assign well_placed w ->
  (forall h, In h (handles w) -> lookup Z.eqb (key_of (hat h)) (dict (tab w)) = Some (hname h)) /\
  (forall n, check_by_name (tab w) n = true -> exists h, In h (handles w) /\ hname h = n) /\
  (forall n, ~ operator_name n -> check_by_name (tab w) n = true <-> exists h, In h (handles w) /\ hname h = n).
Proof. exact names_held. Qed.
Print Assumptions C122_names_partial.

Example C122_case : history no_assign well_placed (result some_acts) /\
  map hname (handles (result some_acts)) = ["robin"; "bird"; "^go"; "robin"].
Proof. exact (conj some_history some_names). Qed.

(* ---- C123 ---- *)
Theorem C123_nothing_left : forall w, history no_assign well_placed w ->
  (forall i, (i < length (handles w))%nat -> exists w', act_on w (Drop i) = Ok w' /\ handles w' = remove_nth i (handles w)) /\
  (forall k, check (tab w) k = true <-> exists h, In h (handles w) /\ key_of (hat h) = k) /\
  (forall a, live w a <-> exists h, In h (handles w) /\ hat h = a) /\
  (handles w = [] -> tab w = empty_table /\ held w = []).
Proof. exact nothing_left. Qed.
Print Assumptions C123_nothing_left.

Example C123_case : history no_assign well_placed (result some_acts) /\
  map hname (handles (result some_acts)) = ["robin"; "bird"; "^go"; "robin"].
Proof. exact (conj some_history some_names). Qed.

(* ---- C124 ---- *)
Theorem C124_clean : forall ord, any_order ord -> forall fresh, thoughtful fresh -> forall room d,
  reached ord fresh room d ->
  (forall i, (i < length (items d))%nat -> exists d', take ord fresh room d (Release i) = Ok d' /\
     items d' = remove_nth i (items d) /\ leftover d' = leftover d /\ store (reader d') = store (reader d)) /\
  (items d = [] -> tab (atoms (reader d)) = empty_table /\ held (atoms (reader d)) = [] /\ handles (atoms (reader d)) = []).
Proof. exact sessions_clean. Qed.
Print Assumptions C124_clean.

Example C124_case : any_order id_ord /\ thoughtful thoughtful_fresh /\
  reached id_ord thoughtful_fresh allocated later3 /\ length (items later3) = 1%nat.
Proof. exact (conj id_any_order (conj thoughtful_fresh_thoughtful (conj later3_reached later3_items))). Qed.

(* ---- C125 ---- *)
Theorem C125_exact : forall ord, any_order ord -> forall fresh, thoughtful fresh -> forall room d,
  reached ord fresh room d ->
  (forall k, check (tab (atoms (reader d))) k = true <->
     exists it a, In it (items d) /\ In a (held_by (item it)) /\ key_of a = k) /\
  (forall a, live (atoms (reader d)) a <-> exists it, In it (items d) /\ In a (held_by (item it))) /\
  (forall n, check_by_name (tab (atoms (reader d))) n = true ->
     exists it a, In it (items d) /\ In a (held_by (item it)) /\ lookup Z.eqb (key_of a) (dict (tab (atoms (reader d)))) = Some n).
Proof. exact sessions_exact. Qed.
Print Assumptions C125_exact.

Example C125_case : any_order id_ord /\ thoughtful thoughtful_fresh /\
  reached id_ord thoughtful_fresh allocated later3 /\ length (items later3) = 1%nat.
Proof. exact (conj id_any_order (conj thoughtful_fresh_thoughtful (conj later3_reached later3_items))). Qed.

(* ---- C126 ---- *)
(* <A-->B>. is kept, C. is read, and the atom C comes to lie where its key is
   that of <A-->B>: from then on the kept task is printed as C. *)
Theorem C126_text_refuted : exists ord fresh room it t d d' s s', any_order ord /\ thoughtful fresh /\
  reached ord fresh room d /\ onward ord fresh room it d d' /\ item it = VTask t /\
  interpret_task (names_at d) false (store (reader d)) t = Ok s /\
  interpret_task (names_at d') false (store (reader d')) t = Ok s' /\ s <> s'.
Proof. exact text_changes. Qed.
Print Assumptions C126_text_refuted.

(* Missing: atoms with the key of a statement or compound in the task. *)
Theorem C126_text_partial : forall ord, any_order ord -> forall fresh, thoughtful fresh -> forall room it t d d',
  reached ord fresh room d -> onward ord fresh room it d d' -> item it = VTask t ->
  unshadowed (names_at d) (content (sentence_of t)) -> unshadowed (names_at d') (content (sentence_of t)) ->
  forall colored,
    interpret_sentence (names_at d') colored (store (reader d')) (sentence_of t) =
    interpret_sentence (names_at d) colored (store (reader d)) (sentence_of t) /\
    interpret_task (names_at d') colored (store (reader d')) t = interpret_task (names_at d) colored (store (reader d)) t.
Proof. exact text_stays. Qed.
Print Assumptions C126_text_partial.

Example C126_case : any_order id_ord /\ thoughtful thoughtful_fresh /\
  reached id_ord thoughtful_fresh allocated later1 /\ onward id_ord thoughtful_fresh allocated item1 later1 later2 /\
  item item1 = VTask task1 /\ unshadowed (names_at later1) (content (sentence_of task1)) /\
  unshadowed (names_at later2) (content (sentence_of task1)).
Proof.
  exact (conj id_any_order (conj thoughtful_fresh_thoughtful (conj later1_reached (conj onward_later (conj item1_task later_unshadowed))))).
Qed.

(* ---- C127 ---- *)
Theorem C127_reading_on : forall ord, any_order ord -> forall fresh, thoughtful fresh -> forall room d x,
  orderly ord fresh room d -> allowed room d x ->
  (exists d' tk k w, read_text ord fresh room d (text_for x) = Ok d' /\ items d' = Kept (VTask tk) k :: items d /\
     says ord w (Evidence.to_int (Evidence.time (store (reader d)))) (task_in x) tk /\ in_order w (operations (reader d')) /\
     incl (handles (atoms (reader d))) (handles w) /\ incl (handles (atoms (reader d'))) (handles w) /\
     (forall n a, handed_out w n a -> In a (addresses (content (sentence_of tk))) -> handed_out (atoms (reader d')) n a)) \/
  (read_text ord fresh room d (text_for x) = UB /\
     exists w ops, in_order w ops /\ incl (handles (atoms (reader d))) (handles w) /\
       stuck ord (handed_out w) (by_occurrence (body (task_in x))) (body (task_in x))).
Proof. exact proper_sessions. Qed.
Print Assumptions C127_reading_on.

Example C127_case : any_order id_ord /\ thoughtful thoughtful_fresh /\
  orderly id_ord thoughtful_fresh allocated later3 /\ allowed allocated later3 example_case /\ length (items later3) = 1%nat.
Proof.
  exact (conj id_any_order (conj thoughtful_fresh_thoughtful (conj later3_orderly (conj later3_allows later3_items)))).
Qed.

(* ---- C128 ---- *)
Theorem C128_loop : forall ord, any_order ord -> forall fresh, thoughtful fresh -> forall room d l,
  orderly ord fresh room d -> items d = [] -> Forall (alone room) l ->
  (exists d' outs, rounds ord fresh room d (map text_for l) = Ok (d', outs) /\
     tab (atoms (reader d')) = empty_table /\ held (atoms (reader d')) = [] /\ items d' = [] /\
     Forall2 (fun x out => exists st tk names,
       reads_as ord (Evidence.to_int (Evidence.time (store (reader d)))) (task_in x) tk names /\
       Evidence.to_int (Evidence.time st) = Evidence.to_int (Evidence.time (store (reader d))) /\
       interpret_task names false st tk = Ok out) l outs) \/
  (rounds ord fresh room d (map text_for l) = UB /\ exists x, In x l /\
     ((exists w ops, in_order w ops /\ stuck ord (handed_out w) (by_occurrence (body (task_in x))) (body (task_in x))) \/
      (exists tk names, reads_as ord (Evidence.to_int (Evidence.time (store (reader d)))) (task_in x) tk names /\
        interpret names false (content (sentence_of tk)) = UB))).
Proof. exact rounds_print. Qed.
Print Assumptions C128_loop.

Example C128_case : any_order id_ord /\ thoughtful thoughtful_fresh /\
  orderly id_ord thoughtful_fresh allocated start /\ items start = [] /\
  Forall (alone allocated) [relation_case "A" "B"; example_case; word_case "C"].
Proof.
  exact (conj id_any_order (conj thoughtful_fresh_thoughtful (conj (start_orderly thoughtful_fresh) (conj eq_refl some_alone)))).
Qed.

(* ---- C129 ---- *)
(* Which of A and B comes first in (&&, A, B) depends on where they lie. *)
Theorem C129_main_refuted : exists fresh1 fresh2 st d1 d2 out1 out2, thoughtful fresh1 /\ thoughtful fresh2 /\ atoms st = world0 /\
  rounds id_ord fresh1 allocated (Desk st [] []) test_cases = Ok (d1, out1) /\
  rounds id_ord fresh2 allocated (Desk st [] []) test_cases = Ok (d2, out2) /\ out1 <> out2.
Proof. exact lines_differ. Qed.
Print Assumptions C129_main_refuted.

(* Missing: which of the possible lines it is. *)
Theorem C129_main_partial : forall ord, any_order ord -> forall fresh, thoughtful fresh -> forall st, atoms st = world0 ->
  exists d' c1 c2 c3 c4, rounds ord fresh allocated (Desk st [] []) test_cases = Ok (d', [line c1; line c2; line c3; line c4]) /\
    In c1 ["<robin --> bird>"; "robin"; "bird"] /\ In c2 ["(&&, A, B)"; "(&&, B, A)"; "A"; "B"] /\
    In c3 ["(&&, A1, B1)"; "(&&, B1, A1)"; "A1"; "B1"] /\ In c4 ["(&&, A2, B2)"; "(&&, B2, A2)"; "A2"; "B2"] /\
    tab (atoms (reader d')) = empty_table /\ held (atoms (reader d')) = [].
Proof. exact main_lines. Qed.
Print Assumptions C129_main_partial.

Example C129_case : any_order id_ord /\ thoughtful thoughtful_fresh /\ atoms blank_state = world0.
Proof. exact (conj id_any_order (conj thoughtful_fresh_thoughtful eq_refl)). Qed.
