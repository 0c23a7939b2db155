(* Files for the properties of the reader. *)
From Coq Require Import ZArith String Ascii List Bool Lia.
From Verif Require Import Base Parser ActionsCases Actions Sessions SessionsSpec SessionsCases Forms Compound CompoundFacts GenerateSpec Reader ReaderSpec ReaderFacts ReaderFacts2.
From Verif Require Interning.
Import ListNotations.
Open Scope string_scope.
Open Scope list_scope.
Local Open Scope Z_scope.

Definition nl : string := String newline "".

(* A comment, an empty line, a number, two sentences, a number without an end
   of line. *)
Definition some_lines : list string := ["'from A to B"; ""; " 12"; "  <A-->B>. "; "C."; "5"].
Definition some_content : string :=
  ("'from A to B" ++ nl ++ nl ++ " 12" ++ nl ++ "  <A-->B>. " ++ nl ++ "C." ++ nl ++ "5")%string.

Lemma some_lines_in : lines_in some_content some_lines.
Proof. exact (lines_exist some_content). Qed.

Lemma inoffensive l b : sentence_on l = Ok b -> ~ offending l.
Proof. intros E O. apply sentence_undefined in O. congruence. Qed.

Lemma some_inoffensive l : In l some_lines -> ~ offending l.
Proof. intros I. cbn in I. repeat (destruct I as [<-|I]; [eapply inoffensive; reflexivity|]). contradiction. Qed.

Lemma carried l x : sentence_on l = Ok (Some x) -> carries l x.
Proof.
  intros E. destruct (sentence_found l (inoffensive _ _ E)) as [[_ F]|(y & C & F)]; [congruence|].
  assert (x = y) by congruence. subst y. exact C.
Qed.

Lemma carried_nothing l : sentence_on l = Ok None -> carries_nothing l.
Proof.
  intros E. destruct (sentence_found l (inoffensive _ _ E)) as [[C _]|(y & _ & F)]; [exact C|congruence].
Qed.

Lemma some_picks : picks some_lines ["<A-->B>."; "C."].
Proof.
  unfold some_lines. apply P_skip; [apply carried_nothing; reflexivity|]. apply P_skip; [apply carried_nothing; reflexivity|].
  apply P_skip; [apply carried_nothing; reflexivity|]. apply P_take; [apply carried; reflexivity|].
  apply P_take; [apply carried; reflexivity|]. apply P_skip; [apply carried_nothing; reflexivity|]. apply P_end.
Qed.

Lemma some_texts : map text_for [relation_case "A" "B"; word_case "C"] = ["<A-->B>."; "C."].
Proof. reflexivity. Qed.

Lemma some_forms : Forall (alone allocated) [relation_case "A" "B"; word_case "C"].
Proof.
  apply Forall_cons; [apply relation_alone; cbn; tauto|]. apply Forall_cons; [apply word_alone; cbn; tauto|apply Forall_nil].
Qed.

(* A line beginning with a letter beyond ASCII *)
Definition accented : string := String (ascii_of_nat 195) (String (ascii_of_nat 169) ".").
Lemma accented_undefined : sentence_on accented = UB.
Proof. reflexivity. Qed.
Lemma accented_parsed : parse allocated [] accented = Ok (Rejected, []).
Proof. vm_compute. reflexivity. Qed.

(* A sentence that looks like a comment *)
Definition quoted_word : list ast := [Node "task" [Node "judgement" [Node "atom_term" [Leaf "string_raw" "'a"]]]].
Lemma quoted_accepted : parse allocated [] "'a." = Ok (Accepted quoted_word, []).
Proof. vm_compute. reflexivity. Qed.
Lemma quoted_skipped : carries_nothing " 'a.".
Proof. apply carried_nothing. reflexivity. Qed.
Lemma quoted_trimmed : trimmed " 'a." "'a.".
Proof. exact (trim_trimmed " 'a."). Qed.

Lemma number_trimmed : trimmed " 12" "12".
Proof. exact (trim_trimmed " 12"). Qed.

Lemma number_figures : all_figures "12".
Proof. repeat constructor; cbn; lia. Qed.

(* A file whose second sentence is cut off *)
Lemma spoiled_in : lines_in ("C." ++ nl ++ "<A-->" ++ nl)%string ["C."; "<A-->"].
Proof. exact (lines_exist ("C." ++ nl ++ "<A-->" ++ nl)%string). Qed.
Lemma spoiled_inoffensive l : In l ["C."; "<A-->"] -> ~ offending l.
Proof. intros I. cbn in I. repeat (destruct I as [<-|I]; [eapply inoffensive; reflexivity|]). contradiction. Qed.
Lemma spoiled_picks : picks ["C."; "<A-->"] (["C."] ++ "<A-->" :: []).
Proof. cbn [app]. apply P_take; [apply carried; reflexivity|]. apply P_take; [apply carried; reflexivity|apply P_end]. Qed.

Lemma got_pair {A B} (d : A * B) r : is_ok r = true -> r = Ok (fst (got d r), snd (got d r)).
Proof. destruct r as [[a b]| | |]; cbn; intros H; try discriminate H. reflexivity. Qed.

Definition first_desk : desk :=
  fst (got (SessionsCases.start, []) (in_turn (show id_ord thoughtful_fresh allocated false) SessionsCases.start ["C."])).
Definition first_lines : list string :=
  snd (got (SessionsCases.start, []) (in_turn (show id_ord thoughtful_fresh allocated false) SessionsCases.start ["C."])).
Lemma shown_first : is_ok (in_turn (show id_ord thoughtful_fresh allocated false) SessionsCases.start ["C."]) = true.
Proof. vm_compute. reflexivity. Qed.
Lemma shown_first_ok : in_turn (show id_ord thoughtful_fresh allocated false) SessionsCases.start ["C."] = Ok (first_desk, first_lines).
Proof. exact (got_pair (SessionsCases.start, []) _ shown_first). Qed.
Lemma first_left : leftover first_desk = [].
Proof. vm_compute. reflexivity. Qed.
Lemma cut_off_rejected : parse allocated (leftover first_desk) "<A-->" = Ok (Rejected, []).
Proof. rewrite first_left. vm_compute. reflexivity. Qed.
