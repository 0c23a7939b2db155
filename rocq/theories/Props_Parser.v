(* Properties of the generated parser *)
From Coq Require Import ZArith String Ascii List Bool Lia.
From Verif Require Import Base Tables Parser ParserSpec Grammar GrammarSpec ParserFacts3 ParserFacts8 ParserRuns ParserCases ParserFacts14 ParserCases2.
Import ListNotations.
Open Scope string_scope.
Open Scope list_scope.
Open Scope Z_scope.

(* ---- C58 ---- *)
(* 20 steps per character and 20 more are always enough, whatever earlier
   parses left in the buffer and whatever the size of the stack. *)
Theorem C58_terminates : forall room left input,
  (match room with Some n => 1 <= n | None => True end)%nat ->
  run (20 * (length left + String.length input) + 20) (start room left input) <> OutOfFuel.
Proof. exact terminates. Qed.
Print Assumptions C58_terminates.

Example C58_case : (match allocated with Some n => 1 <= n | None => True end)%nat /\
  parse allocated [] sample = Ok (Accepted sample_tree, []).
Proof. split; [cbn; lia|exact sample_accepted]. Qed.

(* ---- C59 ---- *)
(* No step is undefined when the stack is large enough. *)
Theorem C59_tables : forall left input c, reached unlimited left input c -> exists r, step c = Ok r.
Proof. exact reached_step. Qed.
Print Assumptions C59_tables.

(* Every reduction leaves a cell, and finds its goto entry there unless it is
   the last one. *)
Theorem C59_reductions : forall left input c i, reached unlimited left input c -> next c = Reduce i ->
  exists emit n lhs s own below, rd productions i = Ok (emit, n, lhs) /\
    0 <= n < Z.of_nat (length (stack c)) /\
    skipn (Z.to_nat n) (stack c) = Cell s own :: below /\
    (lhs = 59 /\ below = [] \/ exists e, get_go s lhs = Ok (Some e)).
Proof. exact reached_reduce. Qed.
Print Assumptions C59_reductions.

Example C59_case : exists c i, reached unlimited [] "<a --> b>." c /\ next c = Reduce i /\
  (5 < length (stack c))%nat.
Proof. exact reducing_case. Qed.

(* ---- C60 ---- *)
(* The stack is never enlarged in time: a well-formed task can write beyond it. *)
Theorem C60_stack_bounds_refuted : exists input,
  parse allocated [] input = UB /\ exists trees, parse unlimited [] input = Ok (Accepted trees, []).
Proof. exact (ex_intro _ deep_task overflow_task). Qed.
Print Assumptions C60_stack_bounds_refuted.

(* Missing: inputs longer than 123 characters.  The bound is sharp, see C60_case. *)
Theorem C60_short_inputs_partial : forall input, (String.length input <= 123)%nat ->
  parse allocated [] input = parse unlimited [] input /\
  (parse allocated [] input = Ok (Rejected, [])
   \/ exists trees, parse allocated [] input = Ok (Accepted trees, [])).
Proof. exact short_input. Qed.
Print Assumptions C60_short_inputs_partial.

(* Exactly the inputs whose parse needs more than the allocated cells go wrong. *)
Theorem C60_overflow_partial : forall n left input, (1 <= n)%nat ->
  (parse (Some n) left input = UB <->
   exists c, reached unlimited left input c /\ (n < length (stack c))%nat).
Proof. exact parse_overflow. Qed.
Print Assumptions C60_overflow_partial.

Example C60_case : (String.length sample <= 123)%nat /\
  String.length too_deep = 124%nat /\ parse allocated [] too_deep = UB.
Proof. split; [vm_compute; lia|exact overflow_124]. Qed.

(* ---- C61 ---- *)
Theorem C61_grammar : forall room input trees left,
  (match room with Some n => 1 <= n | None => True end)%nat ->
  parse room [] input = Ok (Accepted trees, left) ->
  exists t, derivation t /\ root t = 59 /\ text_of t = line input /\ trees = projection t.
Proof. exact accepted. Qed.
Print Assumptions C61_grammar.

Example C61_case : parse allocated [] sample = Ok (Accepted sample_tree, []).
Proof. exact sample_accepted. Qed.

(* ---- C63 ---- *)
Theorem C63_first_line : forall room left s c t, nat_of_ascii c = 0%nat \/ nat_of_ascii c = 10%nat ->
  parse room left (s ++ String c t)%string = parse room left s.
Proof. exact (fun room left s c t H => first_line room left s c t (code_newline c H)). Qed.
Print Assumptions C63_first_line.

Theorem C63_ascii : forall room s c t,
  (match room with Some n => 1 <= n | None => True end)%nat ->
  (forall x, In x (list_ascii_of_string s) -> nat_of_ascii x <> 0%nat /\ nat_of_ascii x <> 10%nat) ->
  (128 <= nat_of_ascii c)%nat ->
  parse room [] (s ++ String c t)%string = Ok (Rejected, [])
  \/ room <> None /\ parse room [] (s ++ String c t)%string = UB.
Proof. exact high_rejected. Qed.
Print Assumptions C63_ascii.

Example C63_case :
  (forall x, In x (list_ascii_of_string "<a --> b") -> nat_of_ascii x <> 0%nat /\ nat_of_ascii x <> 10%nat) /\
  (128 <= nat_of_ascii (ascii_of_nat 195))%nat /\
  parse allocated [] (String "a" (String "." (String (ascii_of_nat 10) "$$$"))) =
    Ok (Accepted [Node "task" [Node "judgement" [Node "atom_term" [Leaf "string_raw" "a"]]]], []).
Proof.
  split; [|split; [vm_compute; lia|vm_compute; reflexivity]].
  cbn [list_ascii_of_string In]. intros x H.
  repeat (destruct H as [H|H]; [subst x; vm_compute; split; discriminate|]). contradiction.
Qed.

(* ---- C64 ---- *)
(* A sequence of inputs given to one parser object has the outcomes they have
   one by one on a new parser object. *)
Theorem C64_independent : forall room, (match room with Some n => 1 <= n | None => True end)%nat ->
  forall inputs outs left, session room [] inputs = Ok (outs, left) <->
    left = [] /\ Forall2 (fun s o => parse room [] s = Ok (o, [])) inputs outs.
Proof. exact session_each. Qed.
Print Assumptions C64_independent.

Example C64_case : session allocated [] ["<bird --> "; sample; "}"; sample] =
  Ok ([Rejected; Accepted sample_tree; Rejected; Accepted sample_tree], []).
Proof. vm_compute. reflexivity. Qed.

(* ---- C65 ---- *)
(* A tab after a word becomes part of the word. *)
Theorem C65_blanks_refuted : exists t ws1 ws2, derivation t /\ root t = 59 /\
  lexemes t = ws1 ++ ws2 /\ ws1 <> [] /\
  parse unlimited [] (string_of_list_ascii (concat ws1 ++ concat ws2)) = Ok (Accepted (projection t), []) /\
  parse unlimited [] (string_of_list_ascii (concat ws1 ++ [ascii_of_nat 9] ++ concat ws2))
    <> Ok (Accepted (projection t), []).
Proof. exact blanks_refuted. Qed.
Print Assumptions C65_blanks_refuted.

(* Missing: tabs, put in or already in the input. *)
Theorem C65_spaces_partial : forall input trees left,
  parse unlimited [] input = Ok (Accepted trees, left) ->
  Forall (fun c => code c <> 9) (line input) ->
  exists t, derivation t /\ root t = 59 /\ trees = projection t /\ line input = concat (lexemes t) /\
    forall lead pads, length pads = length (lexemes t) ->
      parse unlimited [] (string_of_list_ascii (spaces lead ++ padded (lexemes t) pads)) =
        Ok (Accepted trees, []).
Proof. exact spaces_ignored. Qed.
Print Assumptions C65_spaces_partial.

Example C65_case : parse unlimited [] sample = Ok (Accepted sample_tree, []) /\
  Forall (fun c => code c <> 9) (line sample).
Proof. split; [vm_compute; reflexivity|exact no_tabs]. Qed.

(* ---- C96 ---- *)
(* A tab at the start is read as the start of a word, so a text of the grammar
   is rejected. *)
Theorem C96_accepts_refuted : exists t input, derivation t /\ root t = 59 /\ text_of t = line input /\
  parse unlimited [] input = Ok (Rejected, []).
Proof. exact (ex_intro _ _ (ex_intro _ _ tabbed)). Qed.
Print Assumptions C96_accepts_refuted.

(* Missing: inputs with tabs. *)
Theorem C96_accepts_partial : forall input, ~ In (ascii_of_nat 9) (line input) ->
  ((exists trees, parse unlimited [] input = Ok (Accepted trees, [])) <->
   exists t, derivation t /\ root t = 59 /\ text_of t = line input).
Proof. exact accepts_exactly. Qed.
Print Assumptions C96_accepts_partial.

Theorem C96_rejects_partial : forall input, ~ In (ascii_of_nat 9) (line input) ->
  (parse unlimited [] input = Ok (Rejected, []) <->
   ~ exists t, derivation t /\ root t = 59 /\ text_of t = line input).
Proof. exact others_rejected. Qed.
Print Assumptions C96_rejects_partial.

Example C96_case : ~ In (ascii_of_nat 9) (line sample) /\ parse unlimited [] sample = Ok (Accepted sample_tree, []).
Proof. split; [exact (proj1 sample_plain)|vm_compute; reflexivity]. Qed.

(* ---- C97 ---- *)
Theorem C97_reading : forall t input, derivation t -> root t = 59 -> preferred t -> text_of t = line input ->
  ~ In (ascii_of_nat 9) (line input) -> parse unlimited [] input = Ok (Accepted (projection t), []).
Proof. exact reads_preferred. Qed.
Print Assumptions C97_reading.

Theorem C97_exists : forall input trees, ~ In (ascii_of_nat 9) (line input) ->
  parse unlimited [] input = Ok (Accepted trees, []) ->
  exists t, derivation t /\ root t = 59 /\ preferred t /\ text_of t = line input /\ trees = projection t.
Proof. exact preferred_exists. Qed.
Print Assumptions C97_exists.

(* But for the two overlaps the grammar is unambiguous. *)
Theorem C97_unique : forall t t' input, derivation t -> derivation t' -> root t = 59 -> root t' = 59 ->
  preferred t -> preferred t' -> text_of t = line input -> text_of t' = line input ->
  ~ In (ascii_of_nat 9) (line input) -> projection t = projection t'.
Proof. exact preferred_unique. Qed.
Print Assumptions C97_unique.

(* A text with a preferred derivation and another one, of a different meaning. *)
Example C97_case :
  (derivation direct_tree /\ root direct_tree = 59 /\ preferred direct_tree /\ text_of direct_tree = line "<a-->b>.")
  /\ (derivation wrapped_tree /\ root wrapped_tree = 59 /\ ~ preferred wrapped_tree
      /\ text_of wrapped_tree = line "<a-->b>." /\ projection wrapped_tree <> projection direct_tree)
  /\ ~ In (ascii_of_nat 9) (line "<a-->b>.").
Proof. exact (conj direct (conj wrapped (proj2 sample_plain))). Qed.
