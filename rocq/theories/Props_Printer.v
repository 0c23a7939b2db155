(* Properties of printing *)
From Coq Require Import ZArith String Ascii List Bool Reals.
From Flocq Require Import Core BinarySingleNaN.
From Verif Require Import Base Enums Term Float Parser Actions ActionsCases Printer PrinterSpec PrinterFacts PrinterFacts2 PrinterFacts3 PrinterFacts4 PrinterCases.
From Verif Require Interning InterningSpec Evidence Truth ActionsSpec.
Import ListNotations.
Open Scope string_scope.
Open Scope list_scope.
Open Scope Z_scope.

(* ---- C67 ---- *)
Theorem C67_undefined_refuted : exists names s op, is_operation op = true /\
  interpret names false (Stmt Inheritance s op) = UB.
Proof. exact (ex_intro _ few_names (ex_intro _ atom_a (ex_intro _ op_go (conj eq_refl (proj1 operation_undefined))))). Qed.
Print Assumptions C67_undefined_refuted.

(* Neither the copula nor the connector of the subject is printed. *)
Theorem C67_lost_refuted : exists names l op w, is_operation op = true /\
  interpret names false (Stmt Inheritance (Comp Product l) op) = Ok w /\
  interpret names false (Stmt Implication (Comp Product l) op) = Ok w /\
  interpret names false (Stmt Inheritance (Comp ExtensionalSet l) op) = Ok w.
Proof.
  destruct operation_texts as (w & T).
  exact (ex_intro _ few_names (ex_intro _ [atom_a] (ex_intro _ op_go (ex_intro _ w (conj eq_refl T))))).
Qed.
Print Assumptions C67_lost_refuted.

(* Missing: other subjects than products, other copulas than inheritance. *)
Theorem C67_call_partial : forall names l l' a a' w,
  let t := Stmt Inheritance (Comp Product l) (Atom true a) in
  let t' := Stmt Inheritance (Comp Product l') (Atom true a') in
  named names t -> named names t' -> distinct names t t' ->
  (exists s, interpret names false t = Ok s) /\
  (interpret names false t = Ok w -> interpret names false t' = Ok w -> l = l' /\ a = a').
Proof. exact calls_differ. Qed.
Print Assumptions C67_call_partial.

Example C67_case : named few_names call1 /\ distinct few_names call1 call1.
Proof. exact (conj call1_named call1_distinct). Qed.

(* ---- C68 ---- *)
Theorem C68_negative_refuted : exists names l w, In (Itv (-5)) l /\
  interpret names false (Comp SequentialEvents l) = Ok w /\
  parse None [] (w ++ ".")%string = Ok (Rejected, []).
Proof. exact interval_lost. Qed.
Print Assumptions C68_negative_refuted.

(* ---- C69 ---- *)
Theorem C69_texts_differ : forall names t u w, named names t -> named names u -> distinct names t u ->
  interpret names false t = Ok w -> interpret names false u = Ok w -> t = u.
Proof. exact different_texts. Qed.
Print Assumptions C69_texts_differ.

Theorem C69_text_exists : forall names t, named names t -> exists w, interpret names false t = Ok w.
Proof. exact named_prints. Qed.
Print Assumptions C69_text_exists.

Example C69_case : named few_names example1 /\ distinct few_names example1 example1 /\
  interpret few_names false example1 = Ok "<(&&, <$0 --> A>, {A, B}, (^go, B, +5)) ==> (&/, B, +7, A)>".
Proof. exact (conj example1_named (conj example1_distinct example1_text)). Qed.

(* ---- C70 ---- *)
(* The hash value of a statement, cut down to an int, can be the key of an
   atom; atoms closer to each other than 4 GiB do not prevent it. *)
Theorem C70_other_name_refuted : exists w a b c,
  InterningSpec.history InterningSpec.basic InterningSpec.apart w /\
  Interning.handles w = [Interning.Hd c "C"; Interning.Hd b "B"; Interning.Hd a "A"] /\
  interpret (dictionary_of (Interning.tab w)) false (Stmt Inheritance (Atom false a) (Atom false b)) = Ok "C".
Proof. exact wrong_name. Qed.
Print Assumptions C70_other_name_refuted.

(* Missing: statements and compounds whose key is that of a name. *)
Theorem C70_parts_partial : forall names t w, clear names t -> interpret names false t = Ok w -> written names t w.
Proof. exact interpret_written. Qed.
Print Assumptions C70_parts_partial.

Example C70_case : clear few_names example1.
Proof. exact (named_clear _ _ example1_named). Qed.

(* ---- C71 ---- *)
Theorem C71_budget : forall names st t w, interpret_sentence names false st (sentence_of t) = Ok w ->
  exists a b c, interpret_task names false st t = Ok ("$" ++ a ++ ";" ++ b ++ ";" ++ c ++ "$ " ++ w)%string /\
  shows (priority (budget_of t)) a /\ shows (durability (budget_of t)) b /\ shows (quality (budget_of t)) c.
Proof. exact task_text. Qed.
Print Assumptions C71_budget.

Example C71_case : interpret_sentence few_names false (store blank_state) (sentence_of odd_task) = Ok "A? " /\
  interpret_task few_names false (store blank_state) odd_task = Ok "$0.00;1.00;0.56$ A? ".
Proof. exact (conj (proj1 question_prints) odd_text). Qed.

(* ---- C72 ---- *)
(* The format string has six fields, but there are four arguments. *)
Theorem C72_coloured_refuted :
  (forall names st s w, interpret_sentence names true st s <> Ok w) /\
  exists names st s w, interpret_sentence names false st s = Ok w /\ interpret_sentence names true st s = Throw.
Proof.
  exact (conj coloured_never (ex_intro _ few_names (ex_intro _ (store blank_state)
    (ex_intro _ plain_question (ex_intro _ "A? " question_prints))))).
Qed.
Print Assumptions C72_coloured_refuted.

(* ---- C94 ---- *)
(* A name with braces, or the copula {--, is taken for a format string. *)
Theorem C94_colours_refuted :
  (exists names a w, interpret names false (Atom false a) = Ok w /\ interpret names true (Atom false a) = Throw) /\
  (exists names a b w, interpret names false (Stmt Instance (Atom false a) (Atom false b)) = Ok w /\
     interpret names true (Stmt Instance (Atom false a) (Atom false b)) = Throw).
Proof.
  exact (conj (ex_intro _ braces (ex_intro _ 4096 (ex_intro _ "{x}" braces_text)))
    (ex_intro _ few_names (ex_intro _ 4096 (ex_intro _ 4160 (ex_intro _ "<A {-- B>" instance_text))))).
Qed.
Print Assumptions C94_colours_refuted.

(* Missing: names with braces or escape characters, the copulas {-- and {-]. *)
Theorem C94_colours_partial : forall names, (forall k s, names k = Some s -> tame s) ->
  forall t, tame_copulas t -> same_but_colours (interpret names false t) (interpret names true t).
Proof. exact coloured_text. Qed.
Print Assumptions C94_colours_partial.

Example C94_case : (forall k s, few_names k = Some s -> tame s) /\ tame_copulas example1.
Proof. exact (conj few_tame example1_tame). Qed.

(* ---- C95 ---- *)
(* A confidence of 0.9996 is printed as 1.000, which is no confidence. *)
Theorem C95_task_refuted : exists input st tk w,
  parse_task id_ord bump allocated blank_state [] input = Ok (st, [], Some (VTask tk), false) /\
  interpret_task (dictionary_of (Interning.tab (atoms st))) false (store st) tk = Ok w /\
  parse allocated [] w = Ok (Rejected, []).
Proof. exact (ex_intro _ _ (unreadable_exists _ sure_checked)). Qed.
Print Assumptions C95_task_refuted.

(* ---- C101 ---- *)
Theorem C101_truth : forall names st s t w, punct s = Judgement \/ punct s = Goal -> truth_of s = Some t ->
  is_finite (Truth.fr ieee t : float32) = true -> is_finite (Truth.co ieee t : float32) = true ->
  interpret_sentence names false st s = Ok w ->
  exists before f c, w = (before ++ "%" ++ f ++ ";" ++ c ++ "%")%string /\
    decimal 3 (Truth.fr ieee t : float32) f /\ decimal 3 (Truth.co ieee t : float32) c.
Proof. exact truth_shown. Qed.
Print Assumptions C101_truth.

Example C101_case : punct halves = Goal /\ truth_of halves = Some (Truth.Truth ieee (ActionsSpec.literal 1 16) (ActionsSpec.literal 13 16) (ActionsSpec.literal 1 1)) /\
  is_finite (ActionsSpec.literal 1 16) = true /\ is_finite (ActionsSpec.literal 13 16) = true /\
  interpret_sentence few_names false (store blank_state) halves = Ok "A! %0.062;0.812%".
Proof. repeat split; vm_compute; reflexivity. Qed.
