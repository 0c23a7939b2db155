(* Properties of the members of a parser that are not initialised *)
From Coq Require Import ZArith String Ascii List Bool.
From Verif Require Import Base Tables Parser ParserSpec Grammar GrammarSpec Nodes NodesSpec NodesCases Fresh FreshSpec FreshFacts FreshFacts2 FreshCases FreshSpec2 FreshFacts3 FreshSpec3 FreshFacts4 FreshFacts5 FreshFacts8.
From Verif Require Buffer.
Import ListNotations.
Open Scope string_scope.
Open Scope list_scope.
Open Scope Z_scope.

(* ---- C188 ---- *)
(* With error_delay = 3 in a new parser the brackets in front of a statement
   are dropped without a word and the rest is taken; with 0 the line is
   rejected. *)
Theorem C188_delay_refuted : exists input d d' tree left left',
  plain (dparse allocated d [] input) = Ok (Rejected, left) /\
  plain (dparse allocated d' [] input) = Ok (Accepted tree, left').
Proof. exact delay_differs. Qed.
Print Assumptions C188_delay_refuted.

(* What is missing: values from 3 on that come down to 3 while the input is
   read. *)
Theorem C188_delay_partial : forall room d left input,
  d < 3 \/ 23 + 20 * Z.of_nat (length left + length (line input)) < d ->
  plain (dparse room d left input) = parse room left input.
Proof. exact delay_away. Qed.
Print Assumptions C188_delay_partial.

(* What is missing: as before.  Below 3 the value never matters again. *)
Theorem C188_session_partial : forall room inputs d left, d < 3 ->
  dsession room d left inputs = session room left inputs.
Proof. exact session_away. Qed.
Print Assumptions C188_session_partial.

Example C188_delay_case : (-7 < 3 \/ 23 + 20 * Z.of_nat (0 + length (line "<a --> b>.")) < -7) /\
  23 + 20 * Z.of_nat (0 + length (line "<a --> b>.")) < 100000 /\
  dsession allocated 2 [] ["]) a."; "a."] = session allocated [] ["]) a."; "a."] /\
  dsession allocated 3 [] ["]) a."; "a."] <> session allocated [] ["]) a."; "a."].
Proof. exact delay_case. Qed.

(* What is missing: with 0 to start with, as with anything below 3, every line
   that begins with a character no input begins with is rejected.  With 3 all
   such characters are dropped and the rest is read as if it stood alone,
   whatever it is and however many there are. *)
Theorem C188_dropped_partial : forall room front s r, Forall stray front ->
  dparse room 3 [] s = Ok r -> dparse room 3 [] (string_of_list_ascii front ++ s)%string = Ok r.
Proof. exact stray_dropped. Qed.
Print Assumptions C188_dropped_partial.

(* What is missing: as before.  Without a limit to the stack there is always
   an answer, so that it is the same with and without the characters. *)
Theorem C188_same_partial : forall front s, Forall stray front ->
  dparse unlimited 3 [] (string_of_list_ascii front ++ s)%string = dparse unlimited 3 [] s.
Proof. exact dropped_always. Qed.
Print Assumptions C188_same_partial.

(* What is missing: as before; the values from 3 on. *)
Theorem C188_refused_partial : forall room d c front s, room = allocated \/ room = unlimited -> d < 3 ->
  Forall stray (c :: front) ->
  exists kept, plain (dparse room d [] (string_of_list_ascii (c :: front) ++ s)%string) = Ok (Rejected, kept).
Proof. exact stray_rejected. Qed.
Print Assumptions C188_refused_partial.

Example C188_dropped_case : Forall stray (list_ascii_of_string "]") /\ Forall stray (list_ascii_of_string "])}/*") /\
  exists d trees kept, dparse allocated 3 [] "<a --> b>." = Ok (d, (Accepted trees, kept)).
Proof. exact dropped_case. Qed.

(* What is missing: that the trees are the ones of the whole line.  Whatever
   error_delay is at the start, every input of a session ends with an answer,
   nothing is left in the buffer, and an accepted input has trees of what is
   left of its first line without the dropped characters. *)
Theorem C188_sessions_partial : forall inputs d, exists outs, dsession unlimited d [] inputs = Ok (outs, []) /\
  Forall2 (fun o input => o = Rejected \/ exists t, o = Accepted (projection t) /\ derivation t /\ root t = 59 /\
    remains (line input) (text_of t)) outs inputs.
Proof. exact dsession_total. Qed.
Print Assumptions C188_sessions_partial.

Example C188_sessions_case : exists trees d,
  dparse unlimited 3 [] "]<a --> b>." = Ok (d, (Accepted trees, [])) /\
  dparse unlimited 3 [] "a ] b." = Ok (1, (Rejected, [])) /\
  remains (line "]<a --> b>.") (line "<a --> b>.").
Proof. exact all_delays_case. Qed.

(* What is missing: as before; longer inputs, for which the stack may be too
   small (C60). *)
Theorem C188_short_partial : forall inputs d, Forall (fun s => String.length s <= 123)%nat inputs ->
  exists outs, dsession allocated d [] inputs = Ok (outs, []) /\
  Forall2 (fun o input => o = Rejected \/ exists t, o = Accepted (projection t) /\ derivation t /\ root t = 59 /\
    remains (line input) (text_of t)) outs inputs.
Proof. exact dsession_answers. Qed.
Print Assumptions C188_short_partial.

Example C188_short_case : Forall (fun s => String.length s <= 123)%nat ["]<a --> b>."; "])"; "<a --> b>?"] /\
  exists a c, dsession allocated 3 [] ["]<a --> b>."; "])"; "<a --> b>?"] = Ok ([Accepted a; Rejected; Accepted c], []).
Proof. exact short_case. Qed.

(* What is missing: rejected inputs, and inputs with tabs.  Whatever
   error_delay is, inputs that are accepted without it are accepted with the
   same trees: it can only make more inputs be accepted. *)
Theorem C188_accepted_partial : forall d input trees, ~ In (ascii_of_nat 9) (line input) ->
  parse unlimited [] input = Ok (Accepted trees, []) ->
  plain (dparse unlimited d [] input) = Ok (Accepted trees, []).
Proof. exact accepted_alike. Qed.
Print Assumptions C188_accepted_partial.

(* What is missing: as before; longer inputs. *)
Theorem C188_first_partial : forall d input trees kept, (String.length input <= 123)%nat ->
  ~ In (ascii_of_nat 9) (line input) ->
  parse allocated [] input = Ok (Accepted trees, kept) ->
  plain (dparse allocated d [] input) = Ok (Accepted trees, kept).
Proof. exact accepted_first. Qed.
Print Assumptions C188_first_partial.

(* What is missing: as before. *)
Theorem C188_accepted_session_partial : forall inputs d, Forall (fun s => ~ In (ascii_of_nat 9) (line s) /\
    exists trees, parse unlimited [] s = Ok (Accepted trees, [])) inputs ->
  dsession unlimited d [] inputs = session unlimited [] inputs.
Proof. exact session_alike. Qed.
Print Assumptions C188_accepted_session_partial.

Example C188_accepted_case : ~ In (ascii_of_nat 9) (line "$0.5;0.5;0.5$ <(&,a,b) --> b>. :|: %1.0;0.9%") /\
  (exists trees, parse unlimited [] "$0.5;0.5;0.5$ <(&,a,b) --> b>. :|: %1.0;0.9%" = Ok (Accepted trees, [])).
Proof. exact alike_case. Qed.

(* What is missing: bufend is NULL.  With any other bufend beside a null buf,
   the first character of every input is read through a null pointer. *)
Theorem C188_bufend_partial : forall room k input, (0 < k)%nat ->
  Buffer.mparse room (stale_buffer k) input = UB /\
  Buffer.mparse room (stale_buffer 0) input = Buffer.mparse room Buffer.no_buffer input.
Proof. exact bufend_matters. Qed.
Print Assumptions C188_bufend_partial.

(* What is missing: lexem and ast are null.  With any other lexem every input
   frees what was never allocated.  With any other ast every rejected input
   follows it, and an accepted one does not.  With both null the first reading
   is the one of Nodes.v. *)
Theorem C188_pointers_partial : forall room left input h, room <> Some O -> sound h ->
  (forall x a, stale x h -> snd (first_read (Some x) a room left input h) = UB) /\
  (forall a kept, stale a h -> parse room left input = Ok (Rejected, kept) ->
     snd (first_read None (Some a) room left input h) = UB) /\
  (forall a trees kept, parse room left input = Ok (Accepted trees, kept) ->
     first_read None a room left input h = pread room left input h) /\
  first_read None None room left input h = pread room left input h.
Proof. exact pointers_matter. Qed.
Print Assumptions C188_pointers_partial.

Example C188_pointers_case : allocated <> Some O /\ sound some_memory /\ stale 5 some_memory /\
  (exists kept, parse allocated [] "<a --> b" = Ok (Rejected, kept)) /\
  exists trees kept, parse allocated [] told = Ok (Accepted trees, kept).
Proof. exact pointers_case. Qed.
