(* Properties of the defaults of tasks: C187. *)
From Coq Require Import ZArith String Ascii List Bool.
From Verif Require Import Base Enums Term Compound Float Truth Parser ParserCases Actions ActionsSpec ActionsCases
  DefaultsSpec DefaultsFacts.
Import ListNotations.
Open Scope string_scope.
Open Scope Z_scope.
Open Scope list_scope.

(* ---- C187 ---- *)
Theorem C187_defaults_refuted :
  ~ (forall ord fresh input s left st st' tk,
      parse allocated [] input = Ok (Accepted [Node "task" [s]], left) ->
      transform_all ord fresh st [Node "task" [s]] = Ok (st', [VTask tk]) ->
      priority (budget_of tk) = to64 (default_priority (punct (sentence_of tk)))
      /\ durability (budget_of tk) = to64 (default_durability (punct (sentence_of tk)))
      /\ quality (budget_of tk) = default_quality (sentence_of tk)).
Proof. exact defaults_missing. Qed.
Print Assumptions C187_defaults_refuted.

(* What is missing: the default durability, which no task without a budget has,
   and for sentences that are no judgements the default priority. *)
Theorem C187_without_partial : forall ord fresh room input s left st st' vs,
  (match room with Some n => 1 <= n | None => True end)%nat ->
  parse room [] input = Ok (Accepted [Node "task" [s]], left) ->
  transform_all ord fresh st [Node "task" [s]] = Ok (st', vs) ->
  exists tk, vs = [VTask tk]
    /\ (priority (budget_of tk) = to64 (default_priority (punct (sentence_of tk))) <-> punct (sentence_of tk) = Judgement)
    /\ durability (budget_of tk) <> to64 (default_durability (punct (sentence_of tk))).
Proof. exact without_budget. Qed.
Print Assumptions C187_without_partial.

Example C187_case : parse allocated [] plain_question = Ok (Accepted question_tree, []) /\
  exists st' vs, transform_all id_ord bump blank_state question_tree = Ok (st', vs).
Proof. exact (conj question_accepted question_evaluates). Qed.

(* What is missing: any use of the four default priorities.  The action of the
   task, which is the one of the root of every tree, does the same whatever
   they are. *)
Theorem C187_priorities_partial : forall ord fresh room input trees left st st' vs,
  (match room with Some n => 1 <= n | None => True end)%nat ->
  parse room [] input = Ok (Accepted trees, left) ->
  transform_all ord fresh st trees = Ok (st', vs) ->
  exists kids st1 ws tk, trees = [Node "task" kids] /\ transform_all ord fresh st kids = Ok (st1, ws) /\ vs = [VTask tk] /\
    forall priorities, task_with priorities st1 (Some ws) = Ok (st', VTask tk).
Proof. exact priorities_unused. Qed.
Print Assumptions C187_priorities_partial.

(* The action with the priorities of the configuration is the one of the model. *)
Theorem C187_model_partial : forall st a, task_with default_priority st a = make_task st a.
Proof. exact with_defaults. Qed.
Print Assumptions C187_model_partial.

Example C187_priorities_case : parse allocated [] sample = Ok (Accepted sample_tree, []) /\
  exists st' vs, transform_all id_ord bump blank_state sample_tree = Ok (st', vs).
Proof. exact (conj sample_accepted sample_evaluates). Qed.
