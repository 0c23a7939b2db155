(* The rest of the Python module: parse, texts, numbers, arguments, attributes. *)
From Coq Require Import ZArith String Ascii List Bool Lia Permutation Reals Lra.
From Flocq Require Import Core BinarySingleNaN.
From Verif Require Import Base Enums Term TermSpec TermsFacts Compound CompoundFacts CompoundSpec CompoundFacts2 CompoundFacts3 CompoundCases.
From Verif Require Import Float FloatFacts Truth Maps Parser ParserSpec Grammar ParserFacts14 ParserRuns Actions ActionsSpec Printer PrinterSpec PrinterFacts PrinterFacts2 PrinterFacts4.
From Verif Require Import Forms FormFacts5 FormFacts6 FormFacts8 FormFacts9 Api ApiSpec ApiFacts ApiFacts2.
From Verif Require EvidenceSpec EvidenceFacts2 EvidenceFacts3 EvidenceCases.
From Verif Require Import Interning InterningSpec.
From Verif Require Evidence.
Import ListNotations.
Open Scope string_scope.
Open Scope list_scope.
Open Scope Z_scope.

Section Module.
Variable ord : list (option connector * list term) -> list (option connector * list term).
Variable fresh : world -> Z.
Variable room : option nat.
Variable other : object -> string.
Notation evaluate := (Api.evaluate ord fresh room other).

(** * Parsing *)

Lemma parse_eval st rest line : evaluate st rest (Call "parse" [Literal (PyStr line)]) =
  bind (parse_task ord fresh room st rest line) (fun '(st, rest, v, thrown) =>
    Ok (st, rest, if thrown then Raised SystemError else match v with Some (VTask t) => Returned (PyTask t) | _ => Raised SystemError end)).
Proof. reflexivity. Qed.

Theorem parse_results st rest line st' rest' r : evaluate st rest (Call "parse" [Literal (PyStr line)]) = Ok (st', rest', r) ->
  (exists tk, r = Returned (PyTask tk)) \/ r = Raised SystemError.
Proof.
  rewrite parse_eval. destruct (parse_task ord fresh room st rest line) as [[[[st1 rest1] v] thrown]| | |]; cbn [bind]; try discriminate.
  intros E. injection E as <- <- <-. destruct thrown; [right; reflexivity|]. destruct v as [[]|]; eauto.
Qed.

Theorem parse_refused st input : has_room room input -> pending st = [] -> ~ In (ascii_of_nat 9) (Parser.line input) ->
  ~ (exists t, derivation t /\ root t = 59 /\ text_of t = Parser.line input) ->
  exists st', evaluate st [] (Call "parse" [Literal (PyStr input)]) = Ok (st', [], Raised SystemError) /\
    atoms st' = atoms st /\ operations st' = operations st /\ store st' = store st /\ pending st' = [].
Proof.
  intros R P T D. apply (others_rejected input T) in D. rewrite parse_eval. unfold parse_task. rewrite (room_parse room input R), D. cbn [bind].
  unfold finish. cbn [with_vars pending]. rewrite P. cbn [bind]. eexists. split; [reflexivity|]. cbn. auto.
Qed.

Theorem parse_proper (Ho : any_order ord) (Hf : careful fresh) st x lead pads : has_room room (text_for (x, lead, pads)) ->
  in_order (atoms st) (operations st) -> proper_task x -> length pads = length (spell_task x) ->
  population (atoms st) + 2 * Z.of_nat (mentions (body x)) < 4294967295 ->
  (forall s, In s (operators (body x)) -> ~ In s (words (body x)) /\ check_by_name (tab (atoms st)) s = false) ->
  (exists st' tk, evaluate st [] (Call "parse" [Literal (PyStr (text_for (x, lead, pads)))]) = Ok (st', [], Returned (PyTask tk)) /\
    says ord (atoms st') (Evidence.to_int (Evidence.time (store st))) x tk) \/
  (evaluate st [] (Call "parse" [Literal (PyStr (text_for (x, lead, pads)))]) = UB /\
    exists w ops, in_order w ops /\ stuck ord (handed_out w) (by_occurrence (body x)) (body x)).
Proof.
  intros R O P L Po U. rewrite parse_eval. unfold text_for in *.
  destruct (task_read ord Ho fresh Hf room st x lead pads R O P L Po U) as [(st' & tk & E & S & _)|(E & w & ops & Ow & _ & S)]; rewrite E; cbn [bind].
  - left. eauto.
  - right. eauto.
Qed.

(** * Texts *)

Lemma kind_is t k : kind_called t k -> term_kind t = k.
Proof. destruct 1; reflexivity. Qed.

Theorem repr_fails st rest o : expressive o -> evaluate st rest (Call "repr" [Literal o]) = Ok (st, rest, Raised TypeError).
Proof. destruct 1; reflexivity. Qed.

Lemma show_eval st rest e : evaluate st rest (show_call e) =
  bind (evaluate st rest e) (fun '(st, rest, r) =>
    match r with
    | Raised e => Ok (st, rest, Raised e)
    | Returned o => bind (call_repr other st [o; PyNone]) (fun r => Ok (st, rest, r))
    end).
Proof.
  unfold show_call. rewrite (call_eq ord fresh room other). cbn [arguments Api.evaluate bind].
  destruct (evaluate st rest e) as [[[st1 rest1] [o|x]]| | |]; reflexivity.
Qed.

Theorem term_shown st rest t k : named (names_in st) t -> kind_called t k ->
  exists w, evaluate st rest (show_call (Literal (PyTerm t))) = Ok (st, rest, Returned (PyStr ("<" ++ k ++ ": " ++ w ++ ">")%string)) /\
    written (names_in st) t w.
Proof.
  intros N K. destruct (named_prints _ _ N) as (w & E). exists w. split; [|apply interpret_written; [apply named_clear, N|exact E]].
  rewrite show_eval. cbn [Api.evaluate bind call_repr shown]. unfold names_in in E. rewrite E. cbn [bind]. rewrite (kind_is t k K). reflexivity.
Qed.

Lemma sentence_made st rest t p v : exists s, evaluate st rest (sentence_call t p v) =
    Ok (with_store st (fst (Evidence.stamp_bool (store st) true)), rest, Returned (PySentence s false)) /\
  content s = t /\ punct s = p /\ truth_of s = v /\ stamp_of s = snd (Evidence.stamp_bool (store st) true).
Proof.
  exists (Sentence t p v (snd (Evidence.stamp_bool (store st) true))).
  split; [|repeat split]. unfold sentence_call. rewrite (call_eq ord fresh room other).
  assert (X : enum_member "Punctuation" (punctuation_called p) = Returned (PyPunctuation p)) by (destruct p; reflexivity).
  destruct v as [v|]; cbn [arguments Api.evaluate bind]; rewrite X; cbn -[Evidence.stamp_bool];
    destruct (Evidence.stamp_bool (store st) true) as [m s]; reflexivity.
Qed.

Theorem sentence_shown st rest t p v : named (names_in st) t ->
  (forall v', v = Some v' -> is_finite (fr ieee v' : float32) = true /\ is_finite (co ieee v' : float32) = true) ->
  (unprintable p v /\ evaluate st rest (show_call (sentence_call t p v)) = UB) \/
  (~ unprintable p v /\ exists st' w u, evaluate st rest (show_call (sentence_call t p v)) =
      Ok (st', rest, Returned (PyStr ("<Sentence: " ++ w ++ mark_sign p ++ " " ++ u ++ ">")%string)) /\
    written (names_in st) t w /\ truth_text p v u).
Proof.
  intros N F. destruct (named_prints _ _ N) as (w & E).
  assert (W : written (names_in st) t w) by (apply interpret_written; [apply named_clear, N|exact E]).
  rewrite show_eval. unfold names_in in E.
  assert (S : exists st1 s, evaluate st rest (sentence_call t p v) = Ok (st1, rest, Returned (PySentence s false)) /\
    atoms st1 = atoms st /\ content s = t /\ punct s = p /\ truth_of s = v /\ Evidence.is_eternal (stamp_of s) = true).
  { destruct (sentence_made st rest t p v) as (s & X & S1 & S2 & S3 & S4). eexists _, s. split; [exact X|].
    cbn -[Evidence.stamp_bool]. split; [reflexivity|]. split; [exact S1|]. split; [exact S2|]. split; [exact S3|]. rewrite S4. reflexivity. }
  destruct S as (st1 & s & E1 & A1 & S1 & S2 & S3 & S4). rewrite E1. cbn [bind call_repr shown]. rewrite A1.
  assert (NG : p <> Goal -> (unprintable p v /\ interpret_sentence (dictionary_of (tab (atoms st))) false (store st1) s = UB) \/
     (~ unprintable p v /\ exists u, interpret_sentence (dictionary_of (tab (atoms st))) false (store st1) s = Ok (w ++ mark_sign p ++ " " ++ u)%string /\ truth_text p v u)).
  { intros NG. unfold interpret_sentence. rewrite S1, E. cbn [bind]. unfold interpret_truth. rewrite S2, S3, S4.
    destruct p; [|right|contradiction|right].
    - destruct v as [v|]; [right|left; split; [right; auto|reflexivity]]. split; [intros [X|(_ & X)]; discriminate X|].
      destruct (F v eq_refl) as (F1 & F2). rewrite format_truth. cbn [bind]. rewrite format_sentence. eexists. split; [cbn; reflexivity|].
      exists (fixed 3 (fr ieee v)), (fixed 3 (co ieee v)). split; [reflexivity|]. split; apply fixed_decimal; assumption.
    - split; [intros [X|(X & _)]; discriminate X|]. cbn [bind]. rewrite format_sentence. eexists. split; [cbn; reflexivity|]. destruct v; reflexivity.
    - split; [intros [X|(X & _)]; discriminate X|]. cbn [bind]. rewrite format_sentence. eexists. split; [cbn; reflexivity|]. destruct v; reflexivity. }
  unfold sentence_text. rewrite S2. destruct p.
  1,2,4: destruct (NG ltac:(discriminate)) as [(U & X)|(U & u & X & T)]; rewrite X; cbn [bind]; [left; auto|right; split; [exact U|]];
    exists st1, w, u; (split; [|split; [exact W|exact T]]); do 4 f_equal; apply chars_inj; rewrite !chars_app, <- ?app_assoc; reflexivity.
  left. split; [left; reflexivity|]. reflexivity.
Qed.

(** * Evidence of sentences *)

Theorem sentence_evidence maximum duration st rest t p v : EvidenceSpec.reached maximum duration (store st) ->
  exists st' s b, evaluate st rest (sentence_call t p v) = Ok (st', rest, Returned (PySentence s false)) /\
    content s = t /\ punct s = p /\ truth_of s = v /\ Evidence.is_eternal (stamp_of s) = true /\
    Evidence.evidential_base (stamp_of s) = Some b /\ Evidence.ids (store st') b = [Evidence.input_id (store st)] /\
    (forall c, EvidenceSpec.made (store st) c -> EvidenceSpec.separate (store st') b c /\ Evidence.ids (store st') c = Evidence.ids (store st) c) /\
    atoms st' = atoms st /\ operations st' = operations st /\ EvidenceSpec.reached maximum duration (store st').
Proof.
  intros R. destruct (sentence_made st rest t p v) as (s & E & S1 & S2 & S3 & S4).
  destruct (EvidenceFacts3.untensed_base maximum duration (store st) R) as (m & s' & b & P & B & I & O).
  cbn [Evidence.parsed_stamp] in P. rewrite P in E, S4. cbn [fst snd] in E, S4.
  exists (with_store st m), s, b. split; [exact E|]. split; [exact S1|]. split; [exact S2|]. split; [exact S3|]. rewrite S4.
  split; [apply (f_equal snd) in P; cbn [snd] in P; rewrite <- P; reflexivity|]. split; [exact B|]. split; [exact I|]. split; [exact O|].
  split; [reflexivity|]. split; [reflexivity|].
  destruct R as (t0 & n & T & St). exists t0, (n + 1). split; [exact T|].
  eapply EvidenceSpec.steps_more; [exact St|exact Logic.I|eapply EvidenceSpec.step_stamp_bool; exact P].
Qed.

Theorem sentences_apart maximum duration st0 rest t p v st1 s1 d1 b1 n st2 rest' t' p' v' st3 s2 d2 b2 m st4 :
  EvidenceSpec.reached maximum duration (store st0) ->
  evaluate st0 rest (sentence_call t p v) = Ok (st1, rest, Returned (PySentence s1 d1)) -> Evidence.evidential_base (stamp_of s1) = Some b1 ->
  EvidenceSpec.steps maximum duration (EvidenceSpec.sparing [Evidence.set_at (Evidence.bases (store st1) b1)]) (store st1) n (store st2) ->
  evaluate st2 rest' (sentence_call t' p' v') = Ok (st3, rest', Returned (PySentence s2 d2)) -> Evidence.evidential_base (stamp_of s2) = Some b2 ->
  EvidenceSpec.steps maximum duration (EvidenceSpec.sparing [Evidence.set_at (Evidence.bases (store st1) b1); Evidence.set_at (Evidence.bases (store st3) b2)])
    (store st3) m st4 ->
  n + 1 < 18446744073709551616 -> Evidence.is_overlaped st4 b1 b2 = Ok false.
Proof.
  intros R E1 B1 St1 E2 B2 St2 N.
  destruct (sentence_made st0 rest t p v) as (s & E & _ & _ & _ & S). rewrite E1 in E. injection E as -> -> ->.
  destruct (sentence_made st2 rest' t' p' v') as (s' & E & _ & _ & _ & S'). rewrite E2 in E. injection E as -> -> ->.
  rewrite S in B1. rewrite S' in B2. cbn [with_store store] in *.
  eapply EvidenceFacts2.parses_apart; [exact R| |exact B1|exact St1| |exact B2|exact St2|exact N]; cbn [Evidence.parsed_stamp]; apply surjective_pairing.
Qed.
End Module.
