(* Properties of reading from the console *)
From Coq Require Import ZArith String Ascii List Bool Arith.
From Verif Require Import Base Tables Enums Parser ParserSpec ParserCases Buffer BufferSpec BufferCases Term Actions ActionsCases Forms.
From Verif Require Import Console ConsoleSpec ConsoleSpec2 ConsoleFacts ConsoleFacts2 ConsoleFacts3 ConsoleFacts5 ConsoleSpec3 ConsoleSpec4 ConsoleFacts6 ConsoleFacts7 ConsoleCases.
Import ListNotations.
Open Scope string_scope.
Open Scope list_scope.
Open Scope Z_scope.

(* ---- C178 ---- *)
(* For lines of any length: the outcome, and undefined behaviour too, are those
   of parse_string, and what comes behind the line is only left alone. *)
Theorem C178_typed_line : forall room b s later,
  (match room with Some n => 1 <= n | None => True end)%nat -> idle b -> plain s ->
  console room b (typed s ++ later) = before later (mparse room b s).
Proof. exact console_line. Qed.
Print Assumptions C178_typed_line.

Example C178_case : idle no_buffer /\ plain "no, <a-->b>." /\ plain "<a-->b>." /\
  parse allocated [] "<a-->b>." = Ok (Accepted told, []).
Proof. exact (conj no_buffer_idle (conj (proj1 remark_refused) told_read)). Qed.

(* ---- C179 ---- *)
(* The next call reads the end of a line that has been refused. *)
Theorem C179_one_line_refuted : exists s t later p token b b',
  plain s /\ parse allocated [] s = Ok (Rejected, []) /\
  console allocated no_buffer (typed s ++ later) = Ok (Failed p token, b) /\
  console allocated b (queue b) = Ok (Built t, b') /\ queue b' = later.
Proof.
  exact (match remark_told with ex_intro _ p (ex_intro _ t (ex_intro _ b (conj E (ex_intro _ b' (conj E' Q))))) =>
    ex_intro _ "no, <a-->b>." (ex_intro _ told (ex_intro _ (typed "c.") (ex_intro _ p (ex_intro _ t (ex_intro _ b
      (ex_intro _ b' (conj (proj1 remark_refused) (conj (proj2 remark_refused) (conj E (conj E' Q)))))))))) end).
Qed.
Print Assumptions C179_one_line_refuted.

(* Missing: lines that are refused leave some end of the line behind.  When a
   tree has been built the call has read the line and its newline. *)
Theorem C179_left_partial : forall room b l later e b',
  idle b -> ~ In 10 l -> console room b (l ++ 10 :: later) = Ok (e, b') ->
  queue b' = later \/
  (exists p t, e = Failed p t) /\ exists l1 l2, l = l1 ++ l2 /\ queue b' = l2 ++ 10 :: later.
Proof. exact (fun room b l later e b' I => console_left room b l later e b' (proj1 I)). Qed.
Print Assumptions C179_left_partial.

(* Missing: sessions in which some line is refused (see C179_answers_partial),
   and lines of more than 127 characters. *)
Theorem C179_session_partial : forall room, (match room with Some n => 1 <= n | None => True end)%nat ->
  forall lines trees b later, idle b -> Forall (fun s => plain s /\ String.length s <= 127)%nat lines ->
  Forall2 (fun s t => parse room [] s = Ok (Accepted t, [])) lines trees ->
  exists b', consoles room (length lines) b (concat (map typed lines) ++ later) = Ok (map Built trees, b') /\
    idle b' /\ queue b' = later.
Proof. exact consoles_read. Qed.
Print Assumptions C179_session_partial.

(* Missing: that a refused line is read by one call, and long lines.  Some
   calls read exactly the lines, and those for one line say nothing but what
   the line, and ends of it when it is refused, give as strings: no line spoils
   another one. *)
Theorem C179_answers_partial : forall room lines b later, idle b -> Forall (fun s => plain s /\ short_line room s) lines ->
  exists groups b', consoles room (length (concat groups)) b (concat (map typed lines) ++ later) = Ok (concat groups, b') /\
    Forall2 (answers room) lines groups /\ idle b' /\ queue b' = later.
Proof. exact lines_answered. Qed.
Print Assumptions C179_answers_partial.

(* Missing: as above.  A line that is accepted is read by one call; others need
   at most one call more than they have characters. *)
Theorem C179_calls_partial : forall room s es, answers room s es ->
  (1 <= length es <= S (String.length s))%nat /\ forall t, parse room [] s = Ok (Accepted t, []) -> es = [Built t].
Proof. exact (fun room s es A => conj (answers_length room s es A) (fun t => answers_built room s es t A)). Qed.
Print Assumptions C179_calls_partial.

Example C179_case2 : idle no_buffer /\ Forall (fun s => plain s /\ short_line allocated s) ["no, <a-->b>."; "a."] /\
  (exists p token, answers allocated "no, <a-->b>." [Failed p token; Built told]) /\ answers allocated "a." [Built (word "a")].
Proof. exact remark_answered. Qed.

Example C179_case : idle no_buffer /\
  (plain "a." /\ parse allocated [] "a." = Ok (Accepted (word "a"), [])) /\
  (plain "<a-->b>." /\ parse allocated [] "<a-->b>." = Ok (Accepted told, [])).
Proof. exact (conj no_buffer_idle (conj word_read told_read)). Qed.

(* ---- C180 ---- *)
(* Whatever bytes there are before the end of the input *)
Theorem C180_unended : forall room b stream e b', idle b -> ~ In 10 stream ->
  console room b stream = Ok (e, b') -> exists p t, e = Failed p t.
Proof. exact (fun room b stream e b' I => console_unended room b stream e b' (proj1 I)). Qed.
Print Assumptions C180_unended.

Example C180_case : idle no_buffer /\ ~ In 10 (bytes "<a-->b>.") /\
  exists p t b, console allocated no_buffer (bytes "<a-->b>.") = Ok (Failed p t, b).
Proof. exact (conj no_buffer_idle (conj unended_none unended_refused)). Qed.

(* ---- C181 ---- *)
(* A NUL in a word hides the rest of it; one in front of a word keeps the
   buffer from being enlarged, so that the word is written behind its end; and
   a word with a byte outside of ASCII is accepted by the tables but cannot be
   taken over. *)
Theorem C181_bytes_refuted :
  (exists b, console allocated no_buffer (97 :: 0 :: typed "b.") = Ok (Built (word "a"), b)) /\
  (exists w, Forall (fun v => 0 < v < 128) w /\ console allocated no_buffer (0 :: w ++ typed ".") = UB /\
     exists t b, console allocated no_buffer (w ++ typed ".") = Ok (Built t, b)) /\
  console allocated no_buffer (97 :: 195 :: 169 :: typed ".") = UB.
Proof.
  exact (conj nul_cuts (conj (ex_intro _ (repeat 97 200) (conj letters_ascii nul_overflow)) (proj1 accent_undefined))).
Qed.
Print Assumptions C181_bytes_refuted.

(* Missing: that the call is defined, and the texts of the tokens.  (Lines
   without such bytes: C178.)  When it is defined, whether a tree is built and
   which, but for the texts of its tokens, is as with the string in which
   control characters and DEL stand for such bytes. *)
Theorem C181_outline_partial : forall room b stream e b',
  (match room with Some n => 1 <= n | None => True end)%nat -> idle b -> octets stream ->
  console room b stream = Ok (e, b') -> exists o, parse room [] (seen stream) = Ok (o, []) /\ akin o e.
Proof. exact console_akin. Qed.
Print Assumptions C181_outline_partial.

Example C181_case : idle no_buffer /\ octets noisy /\
  (exists b, console allocated no_buffer noisy = Ok (Built (word "a"), b)) /\
  exists t, parse allocated [] (seen noisy) = Ok (Accepted t, []) /\ t <> word "a" /\
    map outline t = map outline (word "a").
Proof. exact (conj no_buffer_idle (conj noisy_octets (conj noisy_first noisy_seen))). Qed.

(* ---- C182 ---- *)
(* parse_input does not forget the names of the variables of the line before. *)
Theorem C182_numbering_refuted :
  exists st b v st' b' v',
    parse_input id_ord bump allocated blank_state no_buffer (typed "<$x --> a>." ++ typed "<$y --> a>.") =
      Ok (st, b, Some v, false) /\ subject_var v = Some (Independent, 0) /\
    parse_input id_ord bump allocated st b (queue b) = Ok (st', b', Some v', false) /\
    subject_var v' = Some (Independent, 1).
Proof. exact (two_lines_ok _ _ two_lines_are). Qed.
Print Assumptions C182_numbering_refuted.

(* Missing: lines read when the parser knows names already (see
   C182_unnamed_partial), and lines of more than 127 characters.  Otherwise parse_input does to the state and gives what
   parse_task does with the line as a string. *)
Theorem C182_first_partial : forall ord fresh room st b s later st' v thrown,
  (match room with Some n => 1 <= n | None => True end)%nat -> idle b -> plain s -> (String.length s <= 127)%nat ->
  ivars st = [] -> dvars st = [] -> qvars st = [] ->
  parse_task ord fresh room st [] s = Ok (st', [], v, thrown) ->
  exists b', parse_input ord fresh room st b (typed s ++ later) = Ok (st', b', v, thrown) /\ idle b'.
Proof. exact parse_input_cleared. Qed.
Print Assumptions C182_first_partial.

(* Missing: lines with variables, and long lines.  Without variables a session
   at the console gives what the lines give as strings, whatever names the
   parser knows. *)
Theorem C182_unnamed_partial : forall ord fresh room, (match room with Some n => 1 <= n | None => True end)%nat ->
  forall lines trees st st0 b later st1 left vs, alike st st0 -> idle b ->
  Forall (fun s => plain s /\ String.length s <= 127)%nat lines ->
  Forall2 (fun s t => parse room [] s = Ok (Accepted t, []) /\ Forall unnamed t) lines trees ->
  readings ord fresh room st0 [] lines = Ok (st1, left, vs) ->
  exists st' b', hearings ord fresh room (length lines) st b (concat (map typed lines) ++ later) = Ok (st', b', vs) /\
    alike st' st1 /\ idle b' /\ queue b' = later.
Proof. exact hearings_unnamed. Qed.
Print Assumptions C182_unnamed_partial.

Example C182_case2 : exists st, ivars st <> [] /\ alike st blank_state /\ idle no_buffer /\
  Forall (fun s => plain s /\ String.length s <= 127)%nat ["<a-->b>."; "a."] /\
  Forall2 (fun s t => parse allocated [] s = Ok (Accepted t, []) /\ Forall unnamed t) ["<a-->b>."; "a."] [told; word "a"] /\
  exists st1 left v1 v2, readings id_ord bump allocated blank_state [] ["<a-->b>."; "a."] = Ok (st1, left, [(Some v1, false); (Some v2, false)]).
Proof. exact unnamed_case. Qed.

Example C182_case : idle no_buffer /\ plain "<$x --> a>." /\
  (exists st v, parse_task id_ord bump allocated blank_state [] "<$x --> a>." = Ok (st, [], Some v, false)) /\
  exists st l v st' l' v',
    parse_task id_ord bump allocated blank_state [] "<$x --> a>." = Ok (st, l, Some v, false) /\
    subject_var v = Some (Independent, 0) /\
    parse_task id_ord bump allocated st l "<$y --> a>." = Ok (st', l', Some v', false) /\
    subject_var v' = Some (Independent, 0).
Proof. exact (conj no_buffer_idle (conj first_plain (conj (runs_ok _ first_runs) (two_strings_ok _ _ two_strings_are)))). Qed.

(* ---- C183 ---- *)
(* Whatever bytes there are, and however many calls *)
Theorem C183_ends : forall room k b stream, (match room with Some n => 1 <= n | None => True end)%nat ->
  idle b -> octets stream ->
  consoles room k b stream <> OutOfFuel /\ consoles room k b stream <> Throw.
Proof. exact consoles_steps. Qed.
Print Assumptions C183_ends.

Example C183_case : idle no_buffer /\ octets noisy /\
  exists p q t t' b, consoles allocated 4 no_buffer noisy =
    Ok ([Built (word "a"); Failed p t; Built told; Failed q t'], b) /\ queue b = [].
Proof. exact (conj no_buffer_idle (conj noisy_octets noisy_session)). Qed.

(* ---- C184 ---- *)
(* One call *)
Theorem C184_call : forall room b stream e b', idle b -> console room b stream = Ok (e, b') ->
  (stream <> [] -> length (queue b') < length stream)%nat /\
  (stream = [] -> queue b' = [] /\ exists p t, e = Failed p t).
Proof. exact console_reads. Qed.
Print Assumptions C184_call.

(* As many calls as there are bytes *)
Theorem C184_session : forall room k b stream es b', (match room with Some n => 1 <= n | None => True end)%nat ->
  idle b -> octets stream -> (length stream <= k)%nat ->
  consoles room k b stream = Ok (es, b') -> queue b' = [].
Proof. exact consoles_all_read. Qed.
Print Assumptions C184_session.

Example C184_case : idle no_buffer /\ octets (typed "a.") /\
  exists e1 e2 e3 b, consoles allocated 3 no_buffer (typed "a.") = Ok ([e1; e2; e3], b).
Proof. exact (conj no_buffer_idle short_session). Qed.
