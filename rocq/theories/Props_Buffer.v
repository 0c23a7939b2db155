(* Properties of the input buffer of the parser *)
From Coq Require Import ZArith String Ascii List Bool Arith.
From Verif Require Import Base Tables Parser ParserSpec ParserCases Buffer BufferSpec BufferFacts3 BufferCases.
Import ListNotations.
Open Scope string_scope.
Open Scope list_scope.
Open Scope Z_scope.

(* ---- C106 ---- *)
(* A well-formed task with a word of 127 letters makes clear_input read behind
   the buffer. *)
Theorem C106_bounds_refuted : exists input t,
  parse allocated [] input = Ok (Accepted t, []) /\ mparse allocated no_buffer input = UB.
Proof.
  exact (match long_accepted with ex_intro _ t E =>
           ex_intro _ (long 127) (ex_intro _ t (conj E long_overread)) end).
Qed.
Print Assumptions C106_bounds_refuted.

(* Missing: parses that look at 128 characters or more at one time.  In all
   others the parser with a buffer as earlier parses leave it does what the
   parser of C58-C65 does on the text, and leaves such a buffer. *)
Theorem C106_outcomes_partial : forall room b input,
  (match room with Some n => 1 <= n | None => True end)%nat -> idle b ->
  (mparse room b input = UB /\
   (parse room [] input = UB \/
    exists c, reached room [] input c /\ (128 <= looked c <= length (line input))%nat)) \/
  (exists o e b', parse room [] input = Ok (o, []) /\ mparse room b input = Ok (e, b') /\ same o e /\ idle b').
Proof. exact mparse_outcomes. Qed.
Print Assumptions C106_outcomes_partial.

(* Missing: lines of 128 characters or more.  The bound is sharp, see
   C106_case. *)
Theorem C106_session_partial : forall room, (match room with Some n => 1 <= n | None => True end)%nat ->
  forall inputs b outs, idle b -> Forall (fun s => length (line s) <= 127)%nat inputs ->
  Forall2 (fun s o => parse room [] s = Ok (o, [])) inputs outs ->
  exists es b', msession room b inputs = Ok (es, b') /\ Forall2 same outs es /\ idle b'.
Proof. exact msession_short. Qed.
Print Assumptions C106_session_partial.

Example C106_case : idle no_buffer /\ length (line (long 126)) = 127%nat /\ length (line (long 127)) = 128%nat /\
  exists p q t b, msession allocated no_buffer ["<bird --> "; sample; "}"; long 126] =
    Ok ([Failed p q; Built sample_tree; Failed (1, 1)%nat (Ok [125]); Built t], b).
Proof. exact (conj no_buffer_idle (conj line_126 (conj line_127 buffer_session))). Qed.

(* ---- C107 ---- *)
(* When the end of the input has been reached the report reads characters that
   were never written, or shows some that are not in the input. *)
Theorem C107_report_refuted :
  (exists input p b, mparse allocated no_buffer input = Ok (Failed p UB, b)) /\
  (exists input p w b, mparse allocated no_buffer input = Ok (Failed p (Ok w), b) /\
     ~ exists a z, fill input = a ++ w ++ z).
Proof.
  exact (conj (ex_intro _ _ (ex_intro _ _ (proj2 report_unwritten)))
          (match report_stale with ex_intro _ b E =>
             ex_intro _ _ (ex_intro _ _ (ex_intro _ _ (ex_intro _ b (conj E stale_elsewhere)))) end)).
Qed.
Print Assumptions C107_report_refuted.

(* Missing: the token when all of the input has been looked at, or some
   character outside of ASCII.  The line and the column are always those of
   the first character that has not been shifted. *)
Theorem C107_report_partial : forall room b input p token b',
  (match room with Some n => 1 <= n | None => True end)%nat -> idle b ->
  mparse room b input = Ok (Failed p token, b') ->
  exists c k, reached room [] input c /\ step c = Ok (inr (Rejected, [])) /\
    p = (1%nat, S k) /\ (k <= length (line input))%nat /\ text c = skipn k (line input) /\
    ((looked c < length (text c))%nat -> Forall (fun x => 0 <= code x) (firstn (looked c) (text c)) ->
     token = Ok (map code (firstn (looked c) (text c)))).
Proof. exact mparse_report. Qed.
Print Assumptions C107_report_partial.

Example C107_case : (exists b, mparse allocated no_buffer "<a -->} b>." = Ok (Failed (1, 7)%nat (Ok [125]), b)) /\
  (exists b, mparse allocated no_buffer (String (ascii_of_nat 195) "a. ") = Ok (Failed (1, 1)%nat UB, b)).
Proof. exact (conj report_middle report_high). Qed.
