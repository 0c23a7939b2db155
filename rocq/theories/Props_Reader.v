(* Properties of the reader of example files *)
From Coq Require Import ZArith String Ascii List Bool.
From Verif Require Import Base Enums Term Compound CompoundFacts Parser Actions ActionsCases Printer Forms.
From Verif Require Import Interning InterningSpec Sessions SessionsSpec SessionsCases.
From Verif Require Import GenerateSpec Reader ReaderSpec ReaderFacts ReaderFacts2 ReaderFacts3 ReaderCases.
From Verif Require Evidence.
Import ListNotations.
Open Scope string_scope.
Open Scope list_scope.
Open Scope Z_scope.

(* ---- C164 ---- *)
(* The line é. : isdigit is called with a negative number. *)
Theorem C164_any_line_refuted : exists l, sentence_on l = UB.
Proof. exact (ex_intro _ accented accented_undefined). Qed.
Print Assumptions C164_any_line_refuted.

(* Missing: exactly the lines on which a character beyond ASCII follows the
   figures at the beginning. *)
Theorem C164_any_line_partial : forall l,
  (offending l -> sentence_on l = UB) /\
  (~ offending l -> (carries_nothing l /\ sentence_on l = Ok None) \/ exists x, carries l x /\ sentence_on l = Ok (Some x)) /\
  (forall x y, carries l x -> carries l y -> x = y) /\ (forall x, carries l x -> ~ carries_nothing l).
Proof.
  exact (fun l => conj (proj2 (sentence_undefined l)) (conj (sentence_found l) (conj (carries_one l) (carries_not l)))).
Qed.
Print Assumptions C164_any_line_partial.

Example C164_case : carries "  <A-->B>. " "<A-->B>." /\ carries_nothing " 12" /\ offending accented.
Proof.
  exact (conj (carried "  <A-->B>. " "<A-->B>." eq_refl) (conj (carried_nothing " 12" eq_refl)
    (proj1 (sentence_undefined accented) accented_undefined))).
Qed.

(* ---- C165 ---- *)
Theorem C165_sentences_in_turn : forall ord fresh room colored content ls xs,
  lines_in content ls -> picks ls xs -> (forall l, In l ls -> ~ offending l) ->
  forall d, read_file ord fresh room colored d content = in_turn (show ord fresh room colored) d xs.
Proof. exact file_shows. Qed.
Print Assumptions C165_sentences_in_turn.

Theorem C165_every_file : forall content, exists ls, lines_in content ls /\
  (forall ls', lines_in content ls' -> ls' = ls) /\
  ((forall l, In l ls -> ~ offending l) -> exists xs, picks ls xs /\ forall ys, picks ls ys -> ys = xs).
Proof. exact every_file. Qed.
Print Assumptions C165_every_file.

Example C165_case : lines_in some_content some_lines /\ picks some_lines ["<A-->B>."; "C."] /\
  (forall l, In l some_lines -> ~ offending l).
Proof. exact (conj some_lines_in (conj some_picks some_inoffensive)). Qed.

(* ---- C166 ---- *)
(* 'a. is a sentence about the word 'a and taken for a comment. *)
Theorem C166_none_skipped_refuted : exists l x trees, carries_nothing l /\ trimmed l x /\
  parse allocated [] x = Ok (Accepted trees, []).
Proof. exact (ex_intro _ " 'a." (ex_intro _ "'a." (ex_intro _ quoted_word (conj quoted_skipped (conj quoted_trimmed quoted_accepted))))). Qed.
Print Assumptions C166_none_skipped_refuted.

(* Missing: sentences that begin with an apostrophe. *)
Theorem C166_none_skipped_partial : forall room l x trees left,
  (match room with Some n => 1 <= n | None => True end)%nat ->
  parse room [] x = Ok (Accepted trees, left) -> trimmed l x -> carries_nothing l -> comment x.
Proof. exact skipped_comment. Qed.
Print Assumptions C166_none_skipped_partial.

Theorem C166_marks : forall room x trees left,
  (match room with Some n => 1 <= n | None => True end)%nat ->
  parse room [] x = Ok (Accepted trees, left) ->
  exists c, In c (list_ascii_of_string x) /\ (c = "."%char \/ c = "?"%char \/ c = "!"%char \/ c = "@"%char).
Proof. exact accepted_marked. Qed.
Print Assumptions C166_marks.

Example C166_case : (1 <= 128)%nat /\ parse allocated [] "'a." = Ok (Accepted quoted_word, []) /\ trimmed " 'a." "'a." /\ carries_nothing " 'a.".
Proof. exact (conj (Compare_dec.leb_complete 1 128 eq_refl) (conj quoted_accepted (conj quoted_trimmed quoted_skipped))). Qed.

(* ---- C167 ---- *)
Theorem C167_files_print : forall ord, any_order ord -> forall fresh, thoughtful fresh -> forall room colored d content ls l,
  orderly ord fresh room d -> items d = [] -> Forall (alone room) l ->
  lines_in content ls -> (forall k, In k ls -> ~ offending k) -> picks ls (map text_for l) ->
  (exists d' outs, read_file ord fresh room colored d content = Ok (d', outs) /\
     tab (atoms (reader d')) = empty_table /\ held (atoms (reader d')) = [] /\ items d' = [] /\
     Forall2 (fun x out => exists st tk names,
       reads_as ord (Evidence.to_int (Evidence.time (store (reader d)))) (task_in x) tk names /\
       Evidence.to_int (Evidence.time st) = Evidence.to_int (Evidence.time (store (reader d))) /\
       interpret_task names colored st tk = Ok out) l outs) \/
  (read_file ord fresh room colored d content = UB /\ exists x, In x l /\
     ((exists w ops, in_order w ops /\ stuck ord (handed_out w) (by_occurrence (body (task_in x))) (body (task_in x))) \/
      (exists tk names, reads_as ord (Evidence.to_int (Evidence.time (store (reader d)))) (task_in x) tk names /\
        interpret names false (Actions.content (sentence_of tk)) = UB))).
Proof. exact file_prints. Qed.
Print Assumptions C167_files_print.

Example C167_case : any_order id_ord /\ thoughtful thoughtful_fresh /\
  orderly id_ord thoughtful_fresh allocated SessionsCases.start /\ items SessionsCases.start = [] /\
  Forall (alone allocated) [relation_case "A" "B"; word_case "C"] /\
  lines_in some_content some_lines /\ (forall k, In k some_lines -> ~ offending k) /\
  picks some_lines (map text_for [relation_case "A" "B"; word_case "C"]).
Proof.
  exact (conj id_any_order (conj thoughtful_fresh_thoughtful (conj (start_orderly thoughtful_fresh) (conj eq_refl
    (conj some_forms (conj some_lines_in (conj some_inoffensive some_picks))))))).
Qed.

(* ---- C168 ---- *)
(* The pointer to the task of a rejected sentence is null and followed,
   whatever comes before and after the sentence. *)
Theorem C168_malformed_refuted : forall ord fresh room colored content ls xs x ys d d1 outs left',
  lines_in content ls -> (forall l, In l ls -> ~ offending l) -> picks ls (xs ++ x :: ys) ->
  pending (reader d) = [] -> in_turn (show ord fresh room colored) d xs = Ok (d1, outs) ->
  parse room (leftover d1) x = Ok (Rejected, left') ->
  read_file ord fresh room colored d content = UB.
Proof. exact rejected_crashes. Qed.
Print Assumptions C168_malformed_refuted.

Example C168_case : lines_in ("C." ++ nl ++ "<A-->" ++ nl)%string ["C."; "<A-->"] /\
  (forall l, In l ["C."; "<A-->"] -> ~ offending l) /\ picks ["C."; "<A-->"] (["C."] ++ "<A-->" :: []) /\
  pending (reader SessionsCases.start) = [] /\
  in_turn (show id_ord thoughtful_fresh allocated false) SessionsCases.start ["C."] = Ok (first_desk, first_lines) /\
  parse allocated (leftover first_desk) "<A-->" = Ok (Rejected, []).
Proof.
  exact (conj spoiled_in (conj spoiled_inoffensive (conj spoiled_picks (conj eq_refl (conj shown_first_ok cut_off_rejected))))).
Qed.
