(* Properties of the semantic actions *)
From Coq Require Import ZArith String Ascii List Bool Reals Permutation Lia.
From Flocq Require Import Core BinarySingleNaN.
From Verif Require Import Base Enums Term Compound CompoundSpec Maps Float Truth NumeralSpec.
From Verif Require Import Parser ParserCases Actions ActionsSpec ActionsFacts ActionsFacts3 ActionsFacts5 ActionsFacts6 ActionsCases
  TermSpec CopulaSpec CopulaFacts CopulaCases.
Import ListNotations.
Open Scope string_scope.
Open Scope Z_scope.
Open Scope list_scope.

(* ---- C53 ---- *)
Theorem C53_budget : forall ord fresh room input trees left st st' vs,
  (match room with Some n => 1 <= n | None => True end)%nat ->
  parse room [] input = Ok (Accepted trees, left) ->
  transform_all ord fresh st trees = Ok (st', vs) ->
  exists n tk, trees = [n] /\ vs = [VTask tk] /\ budget_told n tk.
Proof. exact parsed_budget. Qed.
Print Assumptions C53_budget.

Example C53_case : parse allocated [] sample = Ok (Accepted sample_tree, []) /\
  exists st' vs, transform_all id_ord bump blank_state sample_tree = Ok (st', vs).
Proof. exact (conj sample_accepted sample_evaluates). Qed.

(* ---- C54 ---- *)
Theorem C54_truth : forall ord fresh room input trees left st st' vs,
  (match room with Some n => 1 <= n | None => True end)%nat ->
  parse room [] input = Ok (Accepted trees, left) ->
  transform_all ord fresh st trees = Ok (st', vs) ->
  exists n tk, trees = [n] /\ vs = [VTask tk] /\ truth_told n tk.
Proof. exact parsed_truth. Qed.
Print Assumptions C54_truth.

Example C54_case : parse allocated [] sample = Ok (Accepted sample_tree, []) /\
  exists st' vs, transform_all id_ord bump blank_state sample_tree = Ok (st', vs).
Proof. exact (conj sample_accepted sample_evaluates). Qed.

(* ---- C55 ---- *)
(* The index of a variable is the position of its name among the names of its
   kind in the input, in the order of first occurrence. *)
Theorem C55_numbering : forall ord fresh room input n left st k st1 kids st2 v,
  (match room with Some n => 1 <= n | None => True end)%nat ->
  parse room [] input = Ok (Accepted [n], left) -> table k st = [] ->
  visits ord fresh st n st1 (Node (variable_name k) kids) ->
  transform ord fresh st1 (Node (variable_name k) kids) = Ok (st2, v) ->
  exists e s i, kids = [Leaf e s] /\ v = VTerm (Var k (Z.of_nat i)) /\
    nth_error (firsts (names k n)) i = Some s.
Proof. exact accepted_numbering. Qed.
Print Assumptions C55_numbering.

Theorem C55_same_name : forall ord fresh room input n left st k st1 e1 s1 st2 i1 st3 e2 s2 st4 i2,
  (match room with Some n => 1 <= n | None => True end)%nat ->
  parse room [] input = Ok (Accepted [n], left) -> table k st = [] ->
  visits ord fresh st n st1 (Node (variable_name k) [Leaf e1 s1]) ->
  transform ord fresh st1 (Node (variable_name k) [Leaf e1 s1]) = Ok (st2, VTerm (Var k i1)) ->
  visits ord fresh st n st3 (Node (variable_name k) [Leaf e2 s2]) ->
  transform ord fresh st3 (Node (variable_name k) [Leaf e2 s2]) = Ok (st4, VTerm (Var k i2)) ->
  (i1 = i2 <-> s1 = s2).
Proof. exact accepted_same_name. Qed.
Print Assumptions C55_same_name.

(* Whatever was read before: once an input has been read, the tables hold the
   names of this input and no others. *)
Theorem C55_afresh : forall ord fresh room input n left left1 st st' v k,
  (match room with Some n => 1 <= n | None => True end)%nat ->
  parse room [] input = Ok (Accepted [n], left) ->
  parse_task ord fresh room st [] input = Ok (st', left1, Some v, false) ->
  forall s i, lookup String.eqb (vk_repr k ++ s)%string (table k st') = Some i <->
    exists j, i = Z.of_nat j /\ nth_error (firsts (names k n)) j = Some s.
Proof. exact accepted_afresh. Qed.
Print Assumptions C55_afresh.

Example C55_case : parse allocated [] "<(#x * $y * #z) --> #x>." = Ok (Accepted product_tree, []) /\
  table Dependent blank_state = [] /\
  (visits id_ord bump blank_state (hd (Leaf "" "") product_tree) before_last
     (Node (variable_name Dependent) [Leaf "string_raw" "x"]) /\
   transform id_ord bump before_last (Node (variable_name Dependent) [Leaf "string_raw" "x"]) =
     Ok (before_last, VTerm (Var Dependent 0))) /\
  (exists st1 st2, visits id_ord bump blank_state (hd (Leaf "" "") product_tree) st1
     (Node (variable_name Dependent) [Leaf "string_raw" "z"]) /\
   transform id_ord bump st1 (Node (variable_name Dependent) [Leaf "string_raw" "z"]) =
     Ok (st2, VTerm (Var Dependent 1))) /\
  firsts (names Dependent (hd (Leaf "" "") product_tree)) = ["x"; "z"] /\
  exists st left tk, parse_task id_ord bump allocated before_last [] "<(#x * $y * #z) --> #x>." =
    Ok (st, left, Some (VTask tk), false).
Proof.
  exact (conj product_accepted (conj eq_refl (conj product_visits (conj product_first (conj eq_refl product_task))))).
Qed.

(* ---- C56 ---- *)
Theorem C56_sugar : forall ord fresh, (forall m, Permutation (ord m) m) ->
  forall e c st a b st1 st2 s p, In (e, c) copula_actions ->
  transform ord fresh st a = Ok (st1, VTerm s) -> transform ord fresh st1 b = Ok (st2, VTerm p) ->
  (wraps_subject c -> ~ set_compound s) -> (wraps_predicate c -> ~ set_compound p) ->
  transform ord fresh st (Node "statement" [a; Node e []; b]) = Ok (st2, VTerm (meant c s p)).
Proof. exact statement_meant. Qed.
Print Assumptions C56_sugar.

Example C56_case : (forall m, Permutation (id_ord m) m) /\ In ("instance", Instance) copula_actions /\
  (exists st1 st2,
    transform id_ord bump blank_state (Node "atom_term" [Leaf "string_raw" "a"]) = Ok (st1, VTerm (Atom false 4160)) /\
    transform id_ord bump st1 (Node "atom_term" [Leaf "string_raw" "b"]) = Ok (st2, VTerm (Atom false 4224))) /\
  ~ set_compound (Atom false 4160) /\ ~ set_compound (Atom false 4224).
Proof.
  split; [intros m; apply Permutation_refl|]. split; [cbn; tauto|]. split; [exact sugar_case|].
  split; intros (c & l & E & _); discriminate E.
Qed.

(* ---- C57 ---- *)
(* The subject s of an instance statement does not become the member of a set. *)
Theorem C57_dissolved_refuted : exists input a b s p st1 st2 l left,
  parse allocated [] input =
    Ok (Accepted [Node "task" [Node "judgement" [Node "statement" [a; Node "instance" []; b]]]], left) /\
  transform id_ord bump blank_state a = Ok (st1, VTerm s) /\
  transform id_ord bump blank_state (Node "statement" [a; Node "instance" []; b]) =
    Ok (st2, VTerm (Stmt Inheritance (Comp ExtensionalSet l) p)) /\
  ~ In s l.
Proof. exact dissolving. Qed.
Print Assumptions C57_dissolved_refuted.

(* What is missing: compounds of unordered components are dissolved; what is
   built has their components as members.  Left out are components that hold
   variables and sets of the same kind that are not normal. *)
Theorem C57_wrapped_partial : forall ord fresh, (forall m, Permutation (ord m) m) ->
  forall e c st a b st1 st2 s p s' p', In (e, c) copula_actions ->
  transform ord fresh st a = Ok (st1, VTerm s) -> transform ord fresh st1 b = Ok (st2, VTerm p) ->
  (wraps_subject c -> into_set ExtensionalSet s s') -> (~ wraps_subject c -> s' = s) ->
  (wraps_predicate c -> into_set IntensionalSet p p') -> (~ wraps_predicate c -> p' = p) ->
  transform ord fresh st (Node "statement" [a; Node e []; b]) = Ok (st2, VTerm (Stmt (unsugared c) s' p')).
Proof. exact statement_wrapped. Qed.
Print Assumptions C57_wrapped_partial.

Example C57_case : into_set ExtensionalSet two (Comp ExtensionalSet [Atom false 4160; Atom false 4224]) /\
  into_set ExtensionalSet (Atom false 4160) (Comp ExtensionalSet [Atom false 4160]) /\
  into_set ExtensionalSet (Comp ExtensionalSet [Atom false 4160; Atom false 4224])
    (Comp ExtensionalSet [Atom false 4160; Atom false 4224]) /\
  exists st1, transform id_ord bump blank_state (Node "compound_term" [Node "multi_prefix" [Node "con_conjunction" [];
      Node "atom_term" [Leaf "string_raw" "a"]; Node "atom_term" [Leaf "string_raw" "b"]]]) = Ok (st1, VTerm two).
Proof. exact wrapped_case. Qed.

(* ---- C62 ---- *)
Theorem C62_arguments : forall ord fresh room input trees left,
  (match room with Some n => 1 <= n | None => True end)%nat ->
  parse room [] input = Ok (Accepted trees, left) ->
  forall t n, In t trees -> within n t ->
  match n with
  | Leaf e _ => In e (map fst (methods ord fresh)) /\ takes e [KText]
  | Node e kids => In e (map fst (methods ord fresh)) /\
      forall st st' vs, transform_all ord fresh st kids = Ok (st', vs) ->
      exists ks, map kind_of vs = map Some ks /\ takes e ks
  end.
Proof. exact action_arguments. Qed.
Print Assumptions C62_arguments.

Example C62_case : parse allocated [] sample = Ok (Accepted sample_tree, []) /\
  exists st' vs, transform_all id_ord bump blank_state sample_tree = Ok (st', vs).
Proof. exact (conj sample_accepted sample_evaluates). Qed.

(* ---- C91 ---- *)
Theorem C91_rejected_refuted : exists inputs st left thrown input left',
  history id_ord bump allocated blank_state [] inputs = Ok (st, left, thrown) /\
  parse allocated left input = Ok (Rejected, left') /\
  exists st', parse_task id_ord bump allocated st left input = Ok (st', left', None, true).
Proof. exact stale_history. Qed.
Print Assumptions C91_rejected_refuted.

(* Missing: histories in which an input ended in an exception. *)
Theorem C91_rejected_partial : forall ord fresh room inputs st left st1 left1 input left2,
  pending st = [] ->
  history ord fresh room st left inputs = Ok (st1, left1, false) ->
  parse room left1 input = Ok (Rejected, left2) ->
  exists st2, parse_task ord fresh room st1 left1 input = Ok (st2, left2, None, false).
Proof. exact rejected_after. Qed.
Print Assumptions C91_rejected_partial.

Example C91_case : pending blank_state = [] /\
  (exists st left,
    history id_ord bump allocated blank_state [] [sample; "<a"; "<(#x * $y * #z) --> #x>."] = Ok (st, left, false)) /\
  parse allocated [] "<bird --> " = Ok (Rejected, []).
Proof. exact (conj eq_refl (conj quiet_case sample_not_accepted)). Qed.

(* ---- C92 ---- *)
Theorem C92_ranges_refuted : exists input trees left st' tk t,
  parse allocated [] input = Ok (Accepted trees, left) /\
  transform_all id_ord bump blank_state trees = Ok (st', [VTask tk]) /\
  truth_of (sentence_of tk) = Some t /\
  B2R (Truth.co ieee t : float32) = 1%R.
Proof. exact certain_task. Qed.
Print Assumptions C92_ranges_refuted.

(* Missing: that the confidence is neither 0 nor 1 and k is finite. *)
Theorem C92_ranges_partial : forall ord fresh room input trees left st st' vs tk t,
  (match room with Some n => 1 <= n | None => True end)%nat ->
  parse room [] input = Ok (Accepted trees, left) ->
  transform_all ord fresh st trees = Ok (st', vs) -> vs = [VTask tk] -> truth_of (sentence_of tk) = Some t ->
  (is_finite (Truth.fr ieee t) = true /\ 0 <= B2R (Truth.fr ieee t : float32) <= 1)%R /\
  (is_finite (Truth.co ieee t) = true /\ 0 <= B2R (Truth.co ieee t : float32) <= 1)%R /\
  ((Truth.kk ieee t : float32) = B754_infinity false \/
   is_finite (Truth.kk ieee t) = true /\ (1 <= B2R (Truth.kk ieee t : float32))%R).
Proof. exact truth_ranges. Qed.
Print Assumptions C92_ranges_partial.

Example C92_case : exists st' tk t, transform_all id_ord bump blank_state certain_tree = Ok (st', [VTask tk]) /\
  truth_of (sentence_of tk) = Some t.
Proof. exact certain_value. Qed.

(* ---- C93 ---- *)
(* Whole numbers beyond the range of int go through an undefined conversion
   (or, beyond the range of double, throw); all others are read exactly. *)
Theorem C93_interval : forall ord fresh st s n, whole (list_ascii_of_string s) n ->
  transform ord fresh st (Node "interval" [Leaf "integer" s]) =
    (if (-2147483648 <=? n) && (n <=? 2147483647) then Ok (st, VTerm (Itv n)) else UB) \/
  (Z.abs n > 2 ^ 53 /\ transform ord fresh st (Node "interval" [Leaf "integer" s]) = Throw).
Proof. exact interval_read. Qed.
Print Assumptions C93_interval.

Theorem C93_tense : forall ord fresh st s n, whole (list_ascii_of_string s) n ->
  transform ord fresh st (Node "tense_time" [Leaf "integer" s]) =
    (if (-2147483648 <=? n) && (n <=? 2147483647) then Ok (st, VTime n) else UB) \/
  (Z.abs n > 2 ^ 53 /\ transform ord fresh st (Node "tense_time" [Leaf "integer" s]) = Throw).
Proof. exact time_read. Qed.
Print Assumptions C93_tense.

Example C93_case : whole (list_ascii_of_string "4294967296") 4294967296 /\
  whole (list_ascii_of_string "2147483647") 2147483647 /\ whole (list_ascii_of_string "-2147483648") (-2147483648).
Proof. exact whole_cases. Qed.
