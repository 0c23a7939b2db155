(* Properties of printing and reading again. *)
From Coq Require Import ZArith String Ascii List Bool Lia Permutation.
From Verif Require Import Base Enums Term Compound Parser ParserSpec Actions ActionsSpec ActionsCases Printer PrinterSpec.
From Verif Require Import Forms FormCases Roundtrip RoundtripFacts RoundtripFacts3 RoundtripCases.
From Verif Require Interning Evidence.
Import ListNotations.
Open Scope list_scope.
Open Scope Z_scope.

(* ---- C66 ---- *)
(* The numbers of variables are given in the order of their first occurrence in
   the text; the components of a conjunction may be put in another order. *)
Theorem C66_refuted : exists input st tk s st' tk',
  parse_task id_ord careful_fresh allocated blank_state [] input = Ok (st, [], Some (VTask tk), false) /\
  interpret (dictionary_of (Interning.tab (atoms st))) false (content (sentence_of tk)) = Ok s /\
  parse_task id_ord careful_fresh allocated st [] (s ++ ".")%string = Ok (st', [], Some (VTask tk'), false) /\
  teq (content (sentence_of tk')) (content (sentence_of tk)) = Ok false.
Proof. exact (ex_intro _ _ (swapped_exists _ swapped_checked)). Qed.
Print Assumptions C66_refuted.

(* Missing: terms whose variables are not numbered from left to right, and
   terms that share their key with a name (C70). *)
Theorem C66_partial : forall ord fresh st t,
  (forall m, Permutation (ord m) m) -> careful fresh -> in_order (atoms st) (operations st) ->
  legible ord (atoms st) t -> left_to_right t -> (forall k i, t <> Var k i) ->
  population (atoms st) + 2 * Z.of_nat (length (addresses t)) < 4294967295 ->
  exists s, interpret (dictionary_of (Interning.tab (atoms st))) false t = Ok s /\
    forall room p, has_room room (s ++ mark_sign p) -> exists st' tk,
      parse_task ord fresh room st [] (s ++ mark_sign p)%string = Ok (st', [], Some (VTask tk), false) /\
      content (sentence_of tk) = t /\ punct (sentence_of tk) = p /\
      in_order (atoms st') (operations st') /\ Interning.tab (atoms st') = Interning.tab (atoms st) /\
      (forall n a, handed_out (atoms st) n a -> handed_out (atoms st') n a).
Proof. exact read_back. Qed.
Print Assumptions C66_partial.

Example C66_case : (forall m, Permutation (id_ord m) m) /\ careful careful_fresh /\
  in_order (atoms some_state) (operations some_state) /\
  legible id_ord (atoms some_state) some_term /\ left_to_right some_term /\ (forall k i, some_term <> Var k i) /\
  population (atoms some_state) + 2 * Z.of_nat (length (addresses some_term)) < 4294967295.
Proof.
  split; [intros m; apply Permutation_refl|]. split; [exact careful_fresh_careful|]. split; [exact some_order|].
  split; [exact some_legible|]. split; [exact some_numbered|]. split; [discriminate|reflexivity].
Qed.

(* ---- C68 ---- *)
(* Missing: negative intervals, see C68_negative_refuted. *)
Theorem C68_partial : forall ord fresh st n room p,
  (forall m, Permutation (ord m) m) -> careful fresh -> in_order (atoms st) (operations st) ->
  0 <= n <= 2147483647 -> population (atoms st) < 4294967295 ->
  exists s, interpret (dictionary_of (Interning.tab (atoms st))) false (Itv n) = Ok s /\
    (has_room room (s ++ mark_sign p) -> exists st' tk,
      parse_task ord fresh room st [] (s ++ mark_sign p)%string = Ok (st', [], Some (VTask tk), false) /\
      content (sentence_of tk) = Itv n /\ punct (sentence_of tk) = p).
Proof. exact interval_back. Qed.
Print Assumptions C68_partial.

Example C68_case : in_order (atoms some_state) (operations some_state) /\ 0 <= 2147483647 <= 2147483647 /\
  population (atoms some_state) < 4294967295 /\ has_room allocated "+2147483647!".
Proof. split; [exact some_order|]. split; [lia|]. split; [reflexivity|]. right. split; [reflexivity|cbn; lia]. Qed.

(* ---- C95 ---- *)
(* Missing: confidences shown as 0.000 or 1.000 and durabilities shown as 0.00
   or 1.00, see C95_task_refuted; the terms missing in C66. *)
Theorem C95_partial : forall ord fresh st tk,
  (forall m, Permutation (ord m) m) -> careful fresh -> in_order (atoms st) (operations st) ->
  legible ord (atoms st) (content (sentence_of tk)) -> left_to_right (content (sentence_of tk)) ->
  (forall k i, content (sentence_of tk) <> Var k i) ->
  population (atoms st) + 2 * Z.of_nat (length (addresses (content (sentence_of tk)))) < 4294967295 ->
  showable tk ->
  exists s, interpret_task (dictionary_of (Interning.tab (atoms st))) false (store st) tk = Ok s /\
    forall room, has_room room s -> exists st' tk',
      parse_task ord fresh room st [] s = Ok (st', [], Some (VTask tk'), false) /\ similar (store st) tk tk' /\
      in_order (atoms st') (operations st') /\ Interning.tab (atoms st') = Interning.tab (atoms st) /\
      (forall n a, handed_out (atoms st) n a -> handed_out (atoms st') n a).
Proof. exact task_similar. Qed.
Print Assumptions C95_partial.

Example C95_case : in_order (atoms some_state) (operations some_state) /\
  legible id_ord (atoms some_state) (content (sentence_of some_task)) /\ left_to_right (content (sentence_of some_task)) /\
  population (atoms some_state) + 2 * Z.of_nat (length (addresses (content (sentence_of some_task)))) < 4294967295 /\
  showable some_task /\
  interpret_task (dictionary_of (Interning.tab (atoms some_state))) false (store some_state) some_task =
    Ok "$0.50;0.25;0.70$ <(&&, <a --> b>, <$0 --> c>) =/> (&/, <$0 --> $1>, +3, #0)>. :|: %0.750;0.600%"%string.
Proof.
  split; [exact some_order|]. split; [exact some_legible|]. split; [exact some_numbered|]. split; [reflexivity|].
  split; [exact some_showable|exact some_text].
Qed.

(* ---- C100 ---- *)
Theorem C100_settled : forall ord fresh st tk,
  (forall m, Permutation (ord m) m) -> careful fresh -> in_order (atoms st) (operations st) ->
  legible ord (atoms st) (content (sentence_of tk)) -> left_to_right (content (sentence_of tk)) ->
  (forall k i, content (sentence_of tk) <> Var k i) ->
  population (atoms st) + 2 * Z.of_nat (length (addresses (content (sentence_of tk)))) < 4294967295 ->
  showable tk -> Evidence.is_eternal (stamp_of (sentence_of tk)) = true ->
  exists s, interpret_task (dictionary_of (Interning.tab (atoms st))) false (store st) tk = Ok s /\
    forall room, has_room room s -> exists st' tk',
      parse_task ord fresh room st [] s = Ok (st', [], Some (VTask tk'), false) /\
      interpret_task (dictionary_of (Interning.tab (atoms st'))) false (store st') tk' = Ok s /\
      Interning.tab (atoms st') = Interning.tab (atoms st).
Proof. exact text_settles. Qed.
Print Assumptions C100_settled.

Example C100_case : in_order (atoms some_state) (operations some_state) /\
  legible id_ord (atoms some_state) (content (sentence_of lasting_task)) /\ left_to_right (content (sentence_of lasting_task)) /\
  showable lasting_task /\ Evidence.is_eternal (stamp_of (sentence_of lasting_task)) = true /\
  interpret_task (dictionary_of (Interning.tab (atoms some_state))) false (store some_state) lasting_task =
    Ok "$0.50;0.25;0.70$ <(&&, <a --> b>, <$0 --> c>) =/> (&/, <$0 --> $1>, +3, #0)>. %0.750;0.600%"%string.
Proof.
  split; [exact some_order|]. split; [exact some_legible|]. split; [exact some_numbered|]. split; [exact lasting_showable|].
  split; [reflexivity|exact lasting_text].
Qed.
