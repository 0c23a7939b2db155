(* Programs that use the Python module: where it departs from what is written,
   and cases that meet the conditions of the theorems. *)
From Coq Require Import ZArith String Ascii List Bool Lia Permutation Reals Lra.
From Flocq Require Import Core BinarySingleNaN.
From Verif Require Import Base Enums Term TermSpec Compound CompoundFacts CompoundSpec CompoundCases.
From Verif Require Import Float FloatFacts Truth TruthFacts Maps Parser Grammar Actions ActionsSpec ActionsCases Printer PrinterSpec ParserSpec ParserFacts14.
From Verif Require Import Forms FormCases FormFacts5 Sessions SessionsFacts5 SessionsCases.
From Verif Require EvidenceSpec.
From Verif Require Import Interning InterningSpec.
From Verif Require Import Api ApiSpec ApiFacts ApiFacts2 ApiFacts3 ApiFacts4.
Import ListNotations.
Open Scope string_scope.
Open Scope list_scope.
Open Scope Z_scope.

Definition no_text (o : object) : string := "".
Notation run := (evaluate id_ord careful_fresh allocated no_text).

Lemma id_order : any_order id_ord.
Proof. intros m. apply Permutation_refl. Qed.

(** * Terms made and terms read *)

Definition a_task (f : form) : task_form := Written [] f Judgement None [].
Definition tight (x : task_form) : list nat := map (fun _ => O) (spell_task x).

Lemma simple_word c : In c ["A"; "B"; "C"] -> word c.
Proof.
  intros I. left. cbn in I.
  repeat (destruct I as [ <- |I]; [split; [discriminate|]; repeat (apply Forall_cons; [split; [cbn; lia|cbn; intuition discriminate]|]); apply Forall_nil|]).
  contradiction.
Qed.

Lemma simple_plain c : In c ["A"; "B"; "C"] -> PrinterSpec.plain c.
Proof. intros I. destruct (simple_word c I) as [P|(w & -> & _)]; [exact P|]. cbn in I. intuition discriminate. Qed.

(* The term made and the term read *)
Definition both (e : expr) (x : task_form) : option (term * term) :=
  match run blank_state [] e with
  | Ok (st, _, Returned (PyTerm t)) =>
      match parse_task id_ord careful_fresh allocated st [] (text_for (x, O, tight x)) with
      | Ok (_, [], Some (VTask tk), false) => Some (t, content (sentence_of tk))
      | _ => None
      end
  | _ => None
  end.

Lemma both_some e x t u : both e x = Some (t, u) ->
  exists st st' rest tk, run blank_state [] e = Ok (st, rest, Returned (PyTerm t)) /\
    parse_task id_ord careful_fresh allocated st [] (text_for (x, O, tight x)) = Ok (st', [], Some (VTask tk), false) /\ content (sentence_of tk) = u.
Proof.
  unfold both. destruct (run blank_state [] e) as [[[st rest] [o|]]| | |] eqn:E; try discriminate. destruct o; try discriminate.
  destruct (parse_task id_ord careful_fresh allocated st [] (text_for (x, O, tight x))) as [[[[st' [|c r']] [v|]] b]| | |] eqn:P; try discriminate.
  destruct v; try discriminate. destruct b; try discriminate. intros H. injection H as <- <-.
  eauto 10.
Qed.

Definition difference_form : form := Prefixed ExtensionalDifference [Word "A"; Word "B"].
Definition difference_call : expr := compound_call "ExtensionalDifference" [term_call "A"; term_call "B"].
Definition instance_form : form := Relation true Instance (Word "A") (Word "B").
Definition instance_call : expr := statement_call (term_call "A") "Instance" (term_call "B").

Lemma difference_proper : proper_task (a_task difference_form) /\ denotes difference_call difference_form.
Proof.
  split.
  - apply usual_proper; [|discriminate]. apply F_difference; [left; reflexivity| |]; apply F_plain, F_word, simple_word; cbn; tauto.
  - apply (D_compound difference_form ExtensionalDifference [Word "A"; Word "B"]); [reflexivity|]. repeat constructor.
Qed.

Lemma instance_proper : proper_task (a_task instance_form) /\ denotes instance_call instance_form.
Proof.
  split.
  - apply usual_proper; [|discriminate]. apply F_relation; apply F_word, simple_word; cbn; tauto.
  - apply (D_relation true Instance); constructor.
Qed.

Lemma short_room x : (String.length (text_for x) <= 123)%nat -> has_room allocated (text_for x).
Proof. intros H. right. split; [reflexivity|]. exact H. Qed.

Lemma made_otherwise : exists e x t st st' rest tk, proper_task x /\ denotes e (body x) /\ has_room allocated (text_for (x, O, tight x)) /\
  run blank_state [] e = Ok (st, rest, Returned (PyTerm t)) /\
  parse_task id_ord careful_fresh allocated st [] (text_for (x, O, tight x)) = Ok (st', [], Some (VTask tk), false) /\
  content (sentence_of tk) <> t /\ (exists l, t = Comp ParallelEvents l).
Proof.
  assert (E : both difference_call (a_task difference_form) =
    Some (Comp ParallelEvents [Atom false 2; Atom false 1], Comp ExtensionalDifference [Atom false 1; Atom false 2])) by (vm_compute; reflexivity).
  apply both_some in E as (st & st' & rest & tk & E1 & E2 & E3).
  exists difference_call, (a_task difference_form), (Comp ParallelEvents [Atom false 2; Atom false 1]), st, st', rest, tk.
  destruct difference_proper as (P & D). split; [exact P|]. split; [exact D|]. split; [apply short_room; vm_compute; lia|].
  split; [exact E1|]. split; [exact E2|]. split; [rewrite E3; discriminate|eexists; reflexivity].
Qed.

Lemma left_as_is : exists e x t st st' rest tk, proper_task x /\ denotes e (body x) /\ has_room allocated (text_for (x, O, tight x)) /\
  run blank_state [] e = Ok (st, rest, Returned (PyTerm t)) /\
  parse_task id_ord careful_fresh allocated st [] (text_for (x, O, tight x)) = Ok (st', [], Some (VTask tk), false) /\
  content (sentence_of tk) <> t /\ (exists s p, t = Stmt Instance s p).
Proof.
  assert (E : both instance_call (a_task instance_form) =
    Some (Stmt Instance (Atom false 1) (Atom false 2), Stmt Inheritance (Comp ExtensionalSet [Atom false 1]) (Atom false 2))) by (vm_compute; reflexivity).
  apply both_some in E as (st & st' & rest & tk & E1 & E2 & E3).
  exists instance_call, (a_task instance_form), (Stmt Instance (Atom false 1) (Atom false 2)), st, st', rest, tk.
  destruct instance_proper as (P & D). split; [exact P|]. split; [exact D|]. split; [apply short_room; vm_compute; lia|].
  split; [exact E1|]. split; [exact E2|]. split; [rewrite E3; discriminate|do 2 eexists; reflexivity].
Qed.

(* <(&&, A, B) --> {C}>, with the set as {-- *)
Definition rich_form : form := Relation true Instance (Prefixed Conjunction [Word "A"; Word "B"]) (Braces IntensionalSet [Word "C"; Word "A"]).
Definition rich_call : expr :=
  statement_call (compound_call "ExtensionalSet" [compound_call "Conjunction" [term_call "A"; term_call "B"]]) "Inheritance"
    (compound_call "IntensionalSet" [term_call "C"; term_call "A"]).

Fixpoint uses (enum name : string) (e : expr) : bool :=
  match e with
  | Literal _ => false
  | Member x n => String.eqb x enum && String.eqb n name
  | Api.Call _ l => existsb (uses enum name) l
  | Api.Get x _ => uses enum name x
  end.

Lemma used_uses enum name e : used enum name e -> uses enum name e = true.
Proof.
  induction 1 as [|f l e I U IH|e n U IH]; cbn [uses].
  - rewrite !String.eqb_refl. reflexivity.
  - apply existsb_exists. exists e. auto.
  - exact IH.
Qed.

Ltac not_used := let Q := fresh in intros Q; apply used_uses in Q; discriminate Q.

Lemma rich_proper : proper_task (a_task rich_form) /\ denotes rich_call (body (a_task rich_form)) /\ straight rich_call /\
  length (tight (a_task rich_form)) = length (spell_task (a_task rich_form)) /\ has_room allocated (text_for (a_task rich_form, O, tight (a_task rich_form))) /\
  population (atoms blank_state) + 4 * Z.of_nat (length (texts rich_call)) < 4294967295.
Proof.
  assert (W : forall c, In c ["A"; "B"; "C"] -> proper (Word c)) by (intros c I; apply F_word, simple_word, I).
  split; [|split; [|split; [|split; [|split]]]].
  - apply usual_proper; [|discriminate]. apply F_relation.
    + apply F_listing; [left; reflexivity|cbn; lia|]. repeat (apply Forall_cons; [apply W; cbn; tauto|]). apply Forall_nil.
    + apply F_braces; [right; reflexivity|discriminate|]. repeat (apply Forall_cons; [apply W; cbn; tauto|]). apply Forall_nil.
  - apply D_instance.
    + apply (D_compound _ Conjunction [Word "A"; Word "B"]); [reflexivity|repeat constructor].
    + apply (D_compound _ IntensionalSet [Word "C"; Word "A"]); [reflexivity|repeat constructor].
  - split; [not_used|]. intros c [C|C]; destruct C as [->| ->]; not_used.
  - reflexivity.
  - apply short_room; vm_compute; lia.
  - vm_compute. reflexivity.
Qed.

Lemma rich_read : exists t, both rich_call (a_task rich_form) = Some (t, t).
Proof. eexists. vm_compute. reflexivity. Qed.

(** * Again *)

Definition nested : expr := compound_call "Product" [instance_call; compound_call "Disjunction" [difference_call; term_call "C"]].

Lemma simple_usual c : In c ["A"; "B"; "C"] -> usual_name c.
Proof.
  intros I. cbn in I. repeat (destruct I as [<-|I]; [split; [intros (s & Q); discriminate Q|cbn; unfold no_nul; cbn; intuition discriminate]|]). contradiction.
Qed.

Lemma nested_constructs : constructs nested /\ population (atoms blank_state) + 4 * Z.of_nat (length (texts nested)) < 4294967295.
Proof.
  assert (W : forall c, In c ["A"; "B"; "C"] -> constructs (term_call c)) by (intros c I; apply K_term, simple_usual, I).
  split; [|vm_compute; reflexivity].
  apply (K_compound Product). repeat apply Forall_cons; try apply Forall_nil.
  - apply (K_statement (term_call "A") Instance); apply W; cbn; tauto.
  - apply (K_compound Disjunction). repeat apply Forall_cons; try apply Forall_nil; [|apply W; cbn; tauto].
    apply (K_compound ExtensionalDifference). repeat apply Forall_cons; try apply Forall_nil; apply W; cbn; tauto.
Qed.

Lemma nested_made : exists st t, run blank_state [] nested = Ok (st, [], Returned (PyTerm t)).
Proof.
  assert (E : match run blank_state [] nested with Ok (_, [], Returned (PyTerm t)) => Some t | _ => None end <> None) by (vm_compute; discriminate).
  destruct (run blank_state [] nested) as [[[st [|]] [[]|]]| | |]; try (contradiction E; reflexivity). eauto.
Qed.

(** * Lines that are refused *)

Definition refused_line : string := "<A --> B".

Definition ending (r : res (state * list ascii * outcome)) : option exception :=
  match r with Ok (_, [], Raised e) => Some e | _ => None end.

Lemma ending_some r e : ending r = Some e -> exists st, r = Ok (st, [], Raised e).
Proof. destruct r as [[[st [|]] [o|x]]| | |]; try discriminate. intros H. injection H as <-. eauto. Qed.

Lemma refused : exists st, run blank_state [] (Api.Call "parse" [Literal (PyStr refused_line)]) = Ok (st, [], Raised SystemError).
Proof. apply ending_some. vm_compute. reflexivity. Qed.

Lemma refused_underivable : has_room allocated refused_line /\ pending blank_state = [] /\ ~ In (ascii_of_nat 9) (Parser.line refused_line) /\
  ~ (exists t, derivation t /\ root t = 59 /\ text_of t = Parser.line refused_line).
Proof.
  split; [right; split; [reflexivity|vm_compute; lia]|]. split; [reflexivity|]. split; [vm_compute; intuition discriminate|].
  assert (T : ~ In (ascii_of_nat 9) (Parser.line refused_line)) by (vm_compute; intuition discriminate).
  apply (others_rejected refused_line T). vm_compute. reflexivity.
Qed.

(** * Texts *)

Definition shown_term : term := Stmt Inheritance (Comp Conjunction [Atom false 1; Atom false 2]) (Atom false 1).
Definition known : state := got blank_state (bind (run blank_state [] (Api.Call "Statement" [term_call "A"; Member "Copula" "Inheritance"; term_call "B"]))
  (fun '(st, _, _) => Ok st)).

Lemma shown_named : named (names_in known) shown_term /\ kind_called shown_term "Statement".
Proof.
  split; [|constructor].
  assert (A : named (names_in known) (Atom false 1)) by (apply (N_atom _ 1 "A"); [vm_compute; reflexivity|apply simple_plain; cbn; tauto]).
  assert (B : named (names_in known) (Atom false 2)) by (apply (N_atom _ 2 "B"); [vm_compute; reflexivity|apply simple_plain; cbn; tauto]).
  apply N_statement; [vm_compute; reflexivity|reflexivity| |exact A].
  apply N_compound; [vm_compute; reflexivity|discriminate|]. repeat apply Forall_cons; try apply Forall_nil; assumption.
Qed.

Lemma shown_text : run known [] (show_call (Literal (PyTerm shown_term))) = Ok (known, [], Returned (PyStr "<Statement: <(&&, A, B) --> A>>")).
Proof. vm_compute. reflexivity. Qed.

Lemma repr_refused : exists o, expressive o /\ run known [] (Api.Call "repr" [Literal o]) = Ok (known, [], Raised TypeError).
Proof. exists (PyTerm shown_term). split; [constructor|reflexivity]. Qed.

Definition half : truth ieee := Truth ieee (to32 (dfrac ieee 1 2)) (to32 (dfrac ieee 9 10)) (to32 (dfrac ieee 1 1)).

Lemma half_finite : forall v', Some half = Some v' -> is_finite (fr ieee v' : float32) = true /\ is_finite (co ieee v' : float32) = true.
Proof. intros v' E. injection E as <-. split; vm_compute; reflexivity. Qed.

Lemma goal_unshown : run known [] (show_call (sentence_call shown_term Goal (Some half))) = UB /\
  run known [] (show_call (sentence_call shown_term Judgement None)) = UB.
Proof.
  destruct (sentence_shown id_ord careful_fresh allocated no_text known [] shown_term Goal (Some half) (proj1 shown_named) half_finite) as [(_ & E)|(N & _)];
    [|contradiction N; left; reflexivity].
  destruct (sentence_shown id_ord careful_fresh allocated no_text known [] shown_term Judgement None (proj1 shown_named)) as [(_ & E')|(N & _)];
    [discriminate|split; assumption|contradiction N; right; split; reflexivity].
Qed.

(** * Numbers *)

Definition tenth : float64 := dfrac ieee 1 10.

Lemma tenth_changed : exists o o' y, single_field o "f" /\ set_attribute o "f" (PyFloat tenth) = Returned o' /\
  get_attribute o' "f" = Returned (PyFloat y) /\ y <> tenth.
Proof.
  exists (PyTruth half), (PyTruth (Truth ieee (to32 tenth) (co ieee half) (kk ieee half))), (to64 (to32 tenth)).
  split; [constructor; cbn; tauto|]. split; [reflexivity|]. split; [reflexivity|].
  intros E. apply (f_equal (fun z => deq ieee z tenth)) in E. vm_compute in E. discriminate E.
Qed.

Lemma tenth_moderate : moderate tenth.
Proof.
  assert (A : at_ tenth (round radix2 (SpecFloat.fexp 53 1024) ZnearestE (IZR 1 / IZR 10))).
  { unfold tenth. cbn [dfrac ieee]. apply div_at with (e := 0%Z); [side|apply of_Z64_at; reflexivity|apply of_Z64_at; reflexivity|lra|].
    apply Rabs_unit; [lia|lra]. }
  assert (B : (Rabs (round radix2 (SpecFloat.fexp 53 1024) ZnearestE (IZR 1 / IZR 10)) <= bpow radix2 0)%R).
  { apply (rnd_abs 53 1024); [vm_compute; discriminate|apply Rabs_unit; [lia|lra]]. }
  destruct A as (F & V). split; [exact F|]. rewrite nearest_rnd, V. apply Rle_lt_trans with (bpow radix2 0); [|apply bpow_lt; lia].
  apply (rnd_abs 24 128); [vm_compute; discriminate|exact B].
Qed.

Lemma quarter_kept : double_field (PyBudget (make_budget tenth tenth tenth)) "p".
Proof. constructor. cbn. tauto. Qed.

(** * Names *)

Definition cut_name : string := String "a" (String "000" (String "b" EmptyString)).

Definition two_terms (s s' : string) : option (term * term) :=
  match run blank_state [] (term_call s) with
  | Ok (st, _, Returned (PyTerm t)) =>
      match run st [] (term_call s') with
      | Ok (_, [], Returned (PyTerm t')) => Some (t, t')
      | _ => None
      end
  | _ => None
  end.

Lemma names_cut : exists s s' st1 st2 t, s <> s' /\ run blank_state [] (term_call s) = Ok (st1, [], Returned (PyTerm t)) /\
  run st1 [] (term_call s') = Ok (st2, [], Returned (PyTerm t)).
Proof.
  assert (E : two_terms cut_name "a" = Some (Atom false 1, Atom false 1)) by (vm_compute; reflexivity).
  exists cut_name, "a". unfold two_terms in E.
  destruct (run blank_state [] (term_call cut_name)) as [[[st [|]] [o|]]| | |] eqn:E1; try discriminate E; destruct o; try discriminate E.
  - destruct (run st [] (term_call "a")) as [[[st2 [|]] [o|]]| | |] eqn:E2; try discriminate E; destruct o; try discriminate E. injection E as -> ->.
    exists st, st2, (Atom false 1). split; [discriminate|]. split; [reflexivity|exact E2].
  - exfalso. clear E. vm_compute in E1. discriminate E1.
Qed.

(** * Arguments *)

Lemma pointers_mistaken : exists f args, In f functions /\ ~ accepts f args /\
  call_function id_ord careful_fresh allocated no_text blank_state [] f args = UB.
Proof.
  exists "Budget.quality_from_truth", [PyNone]. split; [cbn; tauto|]. split; [intros A; inversion A|reflexivity].
Qed.

Lemma object_mistaken : exists t, ~ accepts "__repr__" [PyTerm t; PyTerm t] /\
  call_function id_ord careful_fresh allocated no_text blank_state [] "__repr__" [PyTerm t; PyTerm t] = UB.
Proof. exists (Atom false 1). split; [intros A; inversion A|reflexivity]. Qed.

Lemma arguments_case : In "Statement" functions /\ ~ accepts "Statement" [PyTerm shown_term; PyConnector Product; PyNone] /\
  call_function id_ord careful_fresh allocated no_text blank_state [] "Statement" [PyTerm shown_term; PyConnector Product; PyNone] =
    Ok (blank_state, [], Raised TypeError).
Proof. split; [cbn; tauto|]. split; [intros A; inversion A|reflexivity]. Qed.

(** * Attributes *)

Lemma components_lost : exists c args l, c <> ExtensionalDifference /\ l <> args /\
  run blank_state [] (Api.Get (compound_call (connector_called c) (map (fun t => Literal (PyTerm t)) args)) "terms") =
    Ok (blank_state, [], Returned (PyIterator l)).
Proof.
  exists Conjunction, [Atom false 1; Atom false 2; Atom false 1], [Atom false 2; Atom false 1]. split; [discriminate|]. split; [discriminate|].
  rewrite (terms_eval id_ord careful_fresh allocated no_text) by discriminate.
  assert (E : compound id_ord false Conjunction [Atom false 1; Atom false 2; Atom false 1] = Ok (Comp Conjunction [Atom false 2; Atom false 1])) by (vm_compute; reflexivity).
  rewrite E. reflexivity.
Qed.

(** * Evidence *)

Lemma blank_reached : EvidenceSpec.reached 20000 5 (store blank_state).
Proof. exists 0, 0. split; [split; [lia|reflexivity]|]. apply EvidenceSpec.steps_none. Qed.
