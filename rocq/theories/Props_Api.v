(* Properties of the Python module *)
From Coq Require Import ZArith String Ascii List Bool Permutation Reals.
From Flocq Require Import Core BinarySingleNaN.
From Verif Require Import Base Enums Term Compound CompoundFacts CompoundSpec CompoundCases Float Truth Parser Grammar Actions ActionsSpec ActionsCases Printer PrinterSpec.
From Verif Require Import Forms FormCases SessionsCases.
From Verif Require Import Interning InterningSpec.
From Verif Require Import Api ApiSpec ApiFacts ApiFacts2 ApiFacts3 ApiFacts4 ApiCases.
From Verif Require Evidence EvidenceSpec.
Import ListNotations.
Open Scope string_scope.
Open Scope list_scope.
Open Scope Z_scope.

(* ---- C130 ---- *)
(* Connector.ExtensionalDifference makes parallel events. *)
Theorem C130_difference_refuted : exists e x t st st' rest tk, proper_task x /\ denotes e (body x) /\ has_room allocated (text_for (x, O, tight x)) /\
  evaluate id_ord careful_fresh allocated no_text blank_state [] e = Ok (st, rest, Returned (PyTerm t)) /\
  parse_task id_ord careful_fresh allocated st [] (text_for (x, O, tight x)) = Ok (st', [], Some (VTask tk), false) /\
  content (sentence_of tk) <> t /\ (exists l, t = Comp ParallelEvents l).
Proof. exact made_otherwise. Qed.
Print Assumptions C130_difference_refuted.

(* Copula.Instance is kept where the parser wraps the subject. *)
Theorem C130_copula_refuted : exists e x t st st' rest tk, proper_task x /\ denotes e (body x) /\ has_room allocated (text_for (x, O, tight x)) /\
  evaluate id_ord careful_fresh allocated no_text blank_state [] e = Ok (st, rest, Returned (PyTerm t)) /\
  parse_task id_ord careful_fresh allocated st [] (text_for (x, O, tight x)) = Ok (st', [], Some (VTask tk), false) /\
  content (sentence_of tk) <> t /\ (exists s p, t = Stmt Instance s p).
Proof. exact left_as_is. Qed.
Print Assumptions C130_copula_refuted.

(* Missing: expressions with Connector.ExtensionalDifference or one of the three
   copulas that wrap. *)
Theorem C130_same_partial : forall ord, any_order ord -> forall fresh, careful fresh -> forall room other st rest e x lead pads,
  in_order (atoms st) (operations st) -> proper_task x -> denotes e (body x) -> straight e ->
  has_room room (text_for (x, lead, pads)) -> length pads = length (spell_task x) ->
  population (atoms st) + 4 * Z.of_nat (length (texts e)) < 4294967295 ->
  (exists st' t, evaluate ord fresh room other st rest e = Ok (st', rest, Returned (PyTerm t)) /\
    exists st'' tk, parse_task ord fresh room st' [] (text_for (x, lead, pads)) = Ok (st'', [], Some (VTask tk), false) /\
      content (sentence_of tk) = t /\ tab (atoms st'') = tab (atoms st')) \/
  (evaluate ord fresh room other st rest e = UB /\ exists w ops, in_order w ops /\
    (forall n a, handed_out (atoms st) n a -> handed_out w n a) /\ stuck ord (handed_out w) (by_occurrence (body x)) (body x)).
Proof. exact reads_built. Qed.
Print Assumptions C130_same_partial.

Example C130_case : any_order id_ord /\ careful careful_fresh /\ in_order (atoms blank_state) (operations blank_state) /\
  proper_task (a_task rich_form) /\ denotes rich_call (body (a_task rich_form)) /\ straight rich_call /\
  length (tight (a_task rich_form)) = length (spell_task (a_task rich_form)) /\ has_room allocated (text_for (a_task rich_form, O, tight (a_task rich_form))) /\
  population (atoms blank_state) + 4 * Z.of_nat (length (texts rich_call)) < 4294967295.
Proof. exact (conj id_order (conj careful_fresh_careful (conj blank_order rich_proper))). Qed.

Example C130_made : exists t, both rich_call (a_task rich_form) = Some (t, t).
Proof. exact rich_read. Qed.

(* ---- C131 ---- *)
Theorem C131_again : forall ord, any_order ord -> forall fresh, careful fresh -> forall room other st rest e,
  in_order (atoms st) (operations st) -> constructs e ->
  population (atoms st) + 4 * Z.of_nat (length (texts e)) < 4294967295 ->
  (exists st' t, evaluate ord fresh room other st rest e = Ok (st', rest, Returned (PyTerm t)) /\
    exists st'', evaluate ord fresh room other st' rest e = Ok (st'', rest, Returned (PyTerm t)) /\ tab (atoms st'') = tab (atoms st')) \/
  evaluate ord fresh room other st rest e = UB.
Proof. exact again. Qed.
Print Assumptions C131_again.

Example C131_case : constructs nested /\ population (atoms blank_state) + 4 * Z.of_nat (length (texts nested)) < 4294967295.
Proof. exact nested_constructs. Qed.

Example C131_made : exists st t, evaluate id_ord careful_fresh allocated no_text blank_state [] nested = Ok (st, [], Returned (PyTerm t)).
Proof. exact nested_made. Qed.

(* ---- C132 ---- *)
(* What Python gets for a line that is no sentence is not the RuntimeError that is set. *)
Theorem C132_error_refuted : exists st, evaluate id_ord careful_fresh allocated no_text blank_state [] (Call "parse" [Literal (PyStr refused_line)]) =
  Ok (st, [], Raised SystemError).
Proof. exact refused. Qed.
Print Assumptions C132_error_refuted.

(* Missing: that the exception is the RuntimeError that was set. *)
Theorem C132_results_partial : forall ord fresh room other st rest line st' rest' r,
  evaluate ord fresh room other st rest (Call "parse" [Literal (PyStr line)]) = Ok (st', rest', r) ->
  (exists tk, r = Returned (PyTask tk)) \/ r = Raised SystemError.
Proof. exact parse_results. Qed.
Print Assumptions C132_results_partial.

Theorem C132_refused_partial : forall ord fresh room other st input, has_room room input -> pending st = [] -> ~ In (ascii_of_nat 9) (Parser.line input) ->
  ~ (exists t, derivation t /\ root t = 59 /\ text_of t = Parser.line input) ->
  exists st', evaluate ord fresh room other st [] (Call "parse" [Literal (PyStr input)]) = Ok (st', [], Raised SystemError) /\
    atoms st' = atoms st /\ operations st' = operations st /\ store st' = store st /\ pending st' = [].
Proof. exact parse_refused. Qed.
Print Assumptions C132_refused_partial.

Theorem C132_proper_partial : forall ord fresh room other, any_order ord -> careful fresh -> forall st x lead pads,
  has_room room (text_for (x, lead, pads)) -> in_order (atoms st) (operations st) -> proper_task x -> length pads = length (spell_task x) ->
  population (atoms st) + 2 * Z.of_nat (mentions (body x)) < 4294967295 ->
  (forall s, In s (operators (body x)) -> ~ In s (words (body x)) /\ check_by_name (tab (atoms st)) s = false) ->
  (exists st' tk, evaluate ord fresh room other st [] (Call "parse" [Literal (PyStr (text_for (x, lead, pads)))]) = Ok (st', [], Returned (PyTask tk)) /\
    says ord (atoms st') (Evidence.to_int (Evidence.time (store st))) x tk) \/
  (evaluate ord fresh room other st [] (Call "parse" [Literal (PyStr (text_for (x, lead, pads)))]) = UB /\
    exists w ops, in_order w ops /\ stuck ord (handed_out w) (by_occurrence (body x)) (body x)).
Proof. exact parse_proper. Qed.
Print Assumptions C132_proper_partial.

Example C132_case : has_room allocated refused_line /\ pending blank_state = [] /\ ~ In (ascii_of_nat 9) (Parser.line refused_line) /\
  ~ (exists t, derivation t /\ root t = 59 /\ text_of t = Parser.line refused_line).
Proof. exact refused_underivable. Qed.

Example C132_case2 : any_order id_ord /\ careful careful_fresh /\ proper_task example_task /\
  has_room allocated (text_for (example_task, 1%nat, example_pads)) /\ length example_pads = length (spell_task example_task) /\
  (forall s, In s (operators (body example_task)) -> ~ In s (words (body example_task)) /\ check_by_name (tab (atoms blank_state)) s = false).
Proof. exact (conj id_order (conj careful_fresh_careful (conj example_proper (conj example_room (conj eq_refl example_names))))). Qed.

(* ---- C133 ---- *)
Theorem C133_repr_refuted : forall ord fresh room other st rest o, expressive o ->
  evaluate ord fresh room other st rest (Call "repr" [Literal o]) = Ok (st, rest, Raised TypeError).
Proof. exact repr_fails. Qed.
Print Assumptions C133_repr_refuted.

(* Missing: repr, and so print and the interactive prompt. *)
Theorem C133_shown_partial : forall ord fresh room other st rest t k, named (names_in st) t -> kind_called t k ->
  exists w, evaluate ord fresh room other st rest (show_call (Literal (PyTerm t))) = Ok (st, rest, Returned (PyStr ("<" ++ k ++ ": " ++ w ++ ">")%string)) /\
    written (names_in st) t w.
Proof. exact term_shown. Qed.
Print Assumptions C133_shown_partial.

Example C133_case : named (names_in known) shown_term /\ kind_called shown_term "Statement".
Proof. exact shown_named. Qed.

Example C133_text : evaluate id_ord careful_fresh allocated no_text known [] (show_call (Literal (PyTerm shown_term))) =
  Ok (known, [], Returned (PyStr "<Statement: <(&&, A, B) --> A>>")).
Proof. exact shown_text. Qed.

(* ---- C134 ---- *)
Theorem C134_sentence_refuted :
  evaluate id_ord careful_fresh allocated no_text known [] (show_call (sentence_call shown_term Goal (Some half))) = UB /\
  evaluate id_ord careful_fresh allocated no_text known [] (show_call (sentence_call shown_term Judgement None)) = UB.
Proof. exact goal_unshown. Qed.
Print Assumptions C134_sentence_refuted.

(* Missing: goals, and judgements without a truth value. *)
Theorem C134_sentence_partial : forall ord fresh room other st rest t p v, named (names_in st) t ->
  (forall v', v = Some v' -> is_finite (fr ieee v' : float32) = true /\ is_finite (co ieee v' : float32) = true) ->
  (unprintable p v /\ evaluate ord fresh room other st rest (show_call (sentence_call t p v)) = UB) \/
  (~ unprintable p v /\ exists st' w u, evaluate ord fresh room other st rest (show_call (sentence_call t p v)) =
      Ok (st', rest, Returned (PyStr ("<Sentence: " ++ w ++ mark_sign p ++ " " ++ u ++ ">")%string)) /\
    written (names_in st) t w /\ truth_text p v u).
Proof. exact sentence_shown. Qed.
Print Assumptions C134_sentence_partial.

Example C134_case : named (names_in known) shown_term /\
  forall v', Some half = Some v' -> is_finite (fr ieee v' : float32) = true /\ is_finite (co ieee v' : float32) = true.
Proof. exact (conj (proj1 shown_named) half_finite). Qed.

(* ---- C135 ---- *)
(* 0.1 is not read back. *)
Theorem C135_kept_refuted : exists o o' y, single_field o "f" /\ set_attribute o "f" (PyFloat tenth) = Returned o' /\
  get_attribute o' "f" = Returned (PyFloat y) /\ y <> tenth.
Proof. exact tenth_changed. Qed.
Print Assumptions C135_kept_refuted.

(* Missing: numbers that a float cannot hold, in the fields that are floats. *)
Theorem C135_doubles_partial : forall o n x o', double_field o n -> set_attribute o n (PyFloat x) = Returned o' -> get_attribute o' n = Returned (PyFloat x).
Proof. exact double_kept. Qed.
Print Assumptions C135_doubles_partial.

Theorem C135_exactly_partial : forall o n x o' y, single_field o n -> set_attribute o n (PyFloat x) = Returned o' -> get_attribute o' n = Returned (PyFloat y) ->
  moderate x -> (B2R y = B2R x <-> generic_format radix2 (FLT_exp (-149) 24) (B2R x)).
Proof. exact narrowed_exactly. Qed.
Print Assumptions C135_exactly_partial.

Theorem C135_truth_partial : forall ord fresh room other st rest x y z n v, In (n, v) [("f", x); ("c", y); ("k", z)] -> moderate v ->
  exists u, evaluate ord fresh room other st rest (Get (Call "Truth" [Literal (PyFloat x); Literal (PyFloat y); Literal (PyFloat z)]) n) =
      Ok (st, rest, Returned (PyFloat u)) /\
    is_finite u = true /\ B2R u = nearest_single (B2R v).
Proof. exact constructor_narrowed. Qed.
Print Assumptions C135_truth_partial.

(* The constructor of Budget takes floats for the fields that are doubles too. *)
Theorem C135_budget_partial : forall ord fresh room other st rest x y z n v, In (n, v) [("p", x); ("d", y); ("q", z)] -> moderate v ->
  exists u, evaluate ord fresh room other st rest (Get (Call "Budget" [Literal (PyFloat x); Literal (PyFloat y); Literal (PyFloat z)]) n) =
      Ok (st, rest, Returned (PyFloat u)) /\
    is_finite u = true /\ B2R u = nearest_single (B2R v).
Proof. exact budget_narrowed. Qed.
Print Assumptions C135_budget_partial.

Theorem C135_others_partial : forall o n x o' m, set_attribute o n (PyFloat x) = Returned o' -> single_field o m \/ double_field o m -> m <> n ->
  get_attribute o' m = get_attribute o m.
Proof. exact others_kept. Qed.
Print Assumptions C135_others_partial.

Example C135_case : moderate tenth /\ double_field (PyBudget (make_budget tenth tenth tenth)) "p".
Proof. exact (conj tenth_moderate quarter_kept). Qed.

(* ---- C136 ---- *)
(* Names are cut at a NUL. *)
Theorem C136_names_refuted : exists s s' st1 st2 t, s <> s' /\
  evaluate id_ord careful_fresh allocated no_text blank_state [] (term_call s) = Ok (st1, [], Returned (PyTerm t)) /\
  evaluate id_ord careful_fresh allocated no_text st1 [] (term_call s') = Ok (st2, [], Returned (PyTerm t)).
Proof. exact names_cut. Qed.
Print Assumptions C136_names_refuted.

(* Missing: names with a NUL, and names of operators. *)
Theorem C136_names_partial : forall ord fresh room other, any_order ord -> careful fresh -> forall st rest s s',
  in_order (atoms st) (operations st) -> usual_name s -> usual_name s' -> population (atoms st) < 4294967291 ->
  exists st1 t st2 t', evaluate ord fresh room other st rest (term_call s) = Ok (st1, rest, Returned (PyTerm t)) /\
    evaluate ord fresh room other st1 rest (term_call s') = Ok (st2, rest, Returned (PyTerm t')) /\ (t = t' <-> s = s').
Proof. exact names_apart. Qed.
Print Assumptions C136_names_partial.

Example C136_case : in_order (atoms blank_state) (operations blank_state) /\ usual_name "A" /\ usual_name "B" /\ population (atoms blank_state) < 4294967291.
Proof. exact (conj blank_order (conj (simple_usual "A" (or_introl eq_refl)) (conj (simple_usual "B" (or_intror (or_introl eq_refl))) eq_refl))). Qed.

(* ---- C137 ---- *)
Theorem C137_null_refuted : exists f args, In f functions /\ ~ accepts f args /\
  call_function id_ord careful_fresh allocated no_text blank_state [] f args = UB.
Proof. exact pointers_mistaken. Qed.
Print Assumptions C137_null_refuted.

Theorem C137_object_refuted : exists t, ~ accepts "__repr__" [PyTerm t; PyTerm t] /\
  call_function id_ord careful_fresh allocated no_text blank_state [] "__repr__" [PyTerm t; PyTerm t] = UB.
Proof. exact object_mistaken. Qed.
Print Assumptions C137_object_refuted.

(* Missing: None for a Truth, and objects for an Interpreter. *)
Theorem C137_refused_partial : forall ord fresh room other st rest f args, In f functions -> ~ accepts f args ->
  (mistaken f args /\ call_function ord fresh room other st rest f args = UB) \/
  (~ mistaken f args /\ exists e, call_function ord fresh room other st rest f args = Ok (st, rest, Raised e) /\
    (e = TypeError \/ f = "Compound" /\ e = RuntimeError)).
Proof. exact arguments_refused. Qed.
Print Assumptions C137_refused_partial.

Example C137_case : In "Statement" functions /\ ~ accepts "Statement" [PyTerm shown_term; PyConnector Product; PyNone] /\
  call_function id_ord careful_fresh allocated no_text blank_state [] "Statement" [PyTerm shown_term; PyConnector Product; PyNone] =
    Ok (blank_state, [], Raised TypeError).
Proof. exact arguments_case. Qed.

(* ---- C138 ---- *)
Theorem C138_terms_refuted : exists c args l, c <> ExtensionalDifference /\ l <> args /\
  evaluate id_ord careful_fresh allocated no_text blank_state []
    (Get (compound_call (connector_called c) (map (fun t => Literal (PyTerm t)) args)) "terms") =
    Ok (blank_state, [], Returned (PyIterator l)).
Proof. exact components_lost. Qed.
Print Assumptions C138_terms_refuted.

Theorem C138_statement_partial : forall ord fresh room other st rest s c p,
  let e := Call "Statement" [Literal (PyTerm s); Member "Copula" (copula_called c); Literal (PyTerm p)] in
  evaluate ord fresh room other st rest (Get e "subject") = Ok (st, rest, Returned (PyTerm s)) /\
  evaluate ord fresh room other st rest (Get e "copula") = Ok (st, rest, Returned (PyCopula c)) /\
  evaluate ord fresh room other st rest (Get e "predicate") = Ok (st, rest, Returned (PyTerm p)) /\
  evaluate ord fresh room other st rest (Get e "terms") = Ok (st, rest, Returned (PyIterator [s; p])).
Proof. exact statement_parts. Qed.
Print Assumptions C138_statement_partial.

(* Missing: set-like compounds with repeated, nested or merged components. *)
Theorem C138_terms_partial : forall ord fresh room other, any_order ord -> forall st rest c args l, c <> ExtensionalDifference ->
  (CompoundSpec.plain c /\ l = args) \/ (c = SequentialEvents /\ l = args /\ forall l', ~ In (Comp SequentialEvents l') args) \/
    (set_like c /\ tidy (Comp c l) /\ Permutation args l) ->
  evaluate ord fresh room other st rest (Get (compound_call (connector_called c) (map (fun t => Literal (PyTerm t)) args)) "terms") =
    Ok (st, rest, Returned (PyIterator l)).
Proof. exact compound_parts. Qed.
Print Assumptions C138_terms_partial.

Example C138_case : set_like Disjunction /\ tidy or_AB.
Proof. split; [constructor | exact or_AB_tidy]. Qed.

(* ---- C139 ---- *)
Theorem C139_own : forall ord fresh room other maximum duration st rest t p v, EvidenceSpec.reached maximum duration (store st) ->
  exists st' s b, evaluate ord fresh room other st rest (sentence_call t p v) = Ok (st', rest, Returned (PySentence s false)) /\
    content s = t /\ punct s = p /\ truth_of s = v /\ Evidence.is_eternal (stamp_of s) = true /\
    Evidence.evidential_base (stamp_of s) = Some b /\ Evidence.ids (store st') b = [Evidence.input_id (store st)] /\
    (forall c, EvidenceSpec.made (store st) c -> EvidenceSpec.separate (store st') b c /\ Evidence.ids (store st') c = Evidence.ids (store st) c) /\
    atoms st' = atoms st /\ operations st' = operations st /\ EvidenceSpec.reached maximum duration (store st').
Proof. exact sentence_evidence. Qed.
Print Assumptions C139_own.

(* Whatever is done in between and afterwards, as long as neither set of evidence is changed. *)
Theorem C139_apart : forall ord fresh room other maximum duration st0 rest t p v st1 s1 d1 b1 n st2 rest' t' p' v' st3 s2 d2 b2 m st4,
  EvidenceSpec.reached maximum duration (store st0) ->
  evaluate ord fresh room other st0 rest (sentence_call t p v) = Ok (st1, rest, Returned (PySentence s1 d1)) -> Evidence.evidential_base (stamp_of s1) = Some b1 ->
  EvidenceSpec.steps maximum duration (EvidenceSpec.sparing [Evidence.set_at (Evidence.bases (store st1) b1)]) (store st1) n (store st2) ->
  evaluate ord fresh room other st2 rest' (sentence_call t' p' v') = Ok (st3, rest', Returned (PySentence s2 d2)) ->
  Evidence.evidential_base (stamp_of s2) = Some b2 ->
  EvidenceSpec.steps maximum duration (EvidenceSpec.sparing [Evidence.set_at (Evidence.bases (store st1) b1); Evidence.set_at (Evidence.bases (store st3) b2)])
    (store st3) m st4 ->
  n + 1 < 18446744073709551616 -> Evidence.is_overlaped st4 b1 b2 = Ok false.
Proof. exact sentences_apart. Qed.
Print Assumptions C139_apart.

Example C139_case : EvidenceSpec.reached 20000 5 (store blank_state).
Proof. exact blank_reached. Qed.
