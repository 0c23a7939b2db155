(* Properties of what Python shows of a Budget and of a Truth *)
From Coq Require Import ZArith String Ascii List Bool Reals.
From Flocq Require Import Core BinarySingleNaN.
From Verif Require Import Base Term Float Truth Actions Printer PrinterSpec.
From Verif Require Import Api ApiCases Shown ShownSpec ShownFacts ShownCases.
From Verif Require Interning.
Import ListNotations.
Open Scope string_scope.
Open Scope list_scope.
Open Scope Z_scope.

(* ---- C196 ---- *)
Theorem C196_budget : forall ord fresh room short own st rest b, exists x y z,
  evaluate ord fresh room (library_text short own) st rest (Call "repr" [Literal (PyBudget b)]) =
    Ok (st, rest, Returned (PyStr ("<Budget: $" ++ x ++ ";" ++ y ++ ";" ++ z ++ "$>")%string)) /\
  two_places (priority b) x /\ two_places (durability b) y /\ two_places (Actions.quality b) z.
Proof. exact budget_shown. Qed.
Print Assumptions C196_budget.

Theorem C196_truth : forall ord fresh room short own st rest t, exists x y,
  evaluate ord fresh room (library_text short own) st rest (Call "repr" [Literal (PyTruth t)]) =
    Ok (st, rest, Returned (PyStr ("<Truth: %" ++ x ++ ", " ++ y ++ "% (k=" ++ short (kk ieee t) ++ ")>")%string)) /\
  two_places (fr ieee t : float32) x /\ two_places (co ieee t : float32) y.
Proof. exact truth_shown_two. Qed.
Print Assumptions C196_truth.

Example C196_case : budget_text (Budget B754_nan (dfrac ieee (-1) 3) (B754_infinity true)) = "<Budget: $nan;-0.33;-inf$>".
Proof. exact odd_places. Qed.

(* ---- C197 ---- *)
(* Tasks are rounded to three places first. *)
Theorem C197_rounding_refuted : exists st t, in_unit (priority (budget_of t)) /\ in_unit (durability (budget_of t)) /\ in_unit (Actions.quality (budget_of t)) /\
  forall ord fresh room short own rest,
  evaluate ord fresh room (library_text short own) st rest (Call "__repr__" [Literal (PyTask t); Literal PyNone]) =
    Ok (st, rest, Returned (PyStr "<Task: $0.03;0.50;0.75$ A? >")) /\
  evaluate ord fresh room (library_text short own) st rest (Call "repr" [Literal (PyBudget (budget_of t))]) =
    Ok (st, rest, Returned (PyStr "<Budget: $0.02;0.50;0.75$>")).
Proof.
  exact (ex_intro _ known (ex_intro _ fine_task (conj (proj1 fine_units) (conj (proj1 (proj2 fine_units)) (conj (proj2 (proj2 fine_units)) fine_texts))))).
Qed.
Print Assumptions C197_rounding_refuted.

(* Only tasks are clamped. *)
Theorem C197_clamped_refuted : exists st t, forall ord fresh room short own rest,
  evaluate ord fresh room (library_text short own) st rest (Call "__repr__" [Literal (PyTask t); Literal PyNone]) =
    Ok (st, rest, Returned (PyStr "<Task: $1.00;0.50;0.75$ A? >")) /\
  evaluate ord fresh room (library_text short own) st rest (Call "repr" [Literal (PyBudget (budget_of t))]) =
    Ok (st, rest, Returned (PyStr "<Budget: $2.00;0.50;0.75$>")).
Proof. exact (ex_intro _ known (ex_intro _ large_task large_texts)). Qed.
Print Assumptions C197_clamped_refuted.

(* Missing: values outside [0,1], and the last digit near a tie. *)
Theorem C197_agree_partial : forall ord fresh room short own st rest t w,
  interpret_sentence (dictionary_of (Interning.tab (atoms st))) false (store st) (sentence_of t) = Ok w ->
  in_unit (priority (budget_of t)) -> in_unit (durability (budget_of t)) -> in_unit (Actions.quality (budget_of t)) ->
  exists a b c x y z,
  evaluate ord fresh room (library_text short own) st rest (Call "__repr__" [Literal (PyTask t); Literal PyNone]) =
    Ok (st, rest, Returned (PyStr ("<Task: $" ++ a ++ ";" ++ b ++ ";" ++ c ++ "$ " ++ w ++ ">")%string)) /\
  evaluate ord fresh room (library_text short own) st rest (Call "repr" [Literal (PyBudget (budget_of t))]) =
    Ok (st, rest, Returned (PyStr ("<Budget: $" ++ x ++ ";" ++ y ++ ";" ++ z ++ "$>")%string)) /\
  about x a /\ about y b /\ about z c /\
  (forall m, clearly (priority (budget_of t)) m -> unit_text x m /\ unit_text a m) /\
  (forall m, clearly (durability (budget_of t)) m -> unit_text y m /\ unit_text b m) /\
  (forall m, clearly (Actions.quality (budget_of t)) m -> unit_text z m /\ unit_text c m).
Proof. exact budgets_agree. Qed.
Print Assumptions C197_agree_partial.

Example C197_case : interpret_sentence (dictionary_of (Interning.tab (atoms known))) false (store known) (sentence_of fine_task) = Ok "A? " /\
  in_unit (priority (budget_of fine_task)) /\ in_unit (durability (budget_of fine_task)) /\ in_unit (Actions.quality (budget_of fine_task)) /\
  clearly (durability (budget_of fine_task)) 50.
Proof. exact (conj asked_prints (conj (proj1 fine_units) (conj (proj1 (proj2 fine_units)) (conj (proj2 (proj2 fine_units)) half_clearly)))). Qed.
