(* Notions used to state properties of the Python module. *)
From Coq Require Import ZArith String Ascii List Bool Reals.
From Flocq Require Import Core BinarySingleNaN.
From Verif Require Import Base Enums Term Compound Float Truth Actions ActionsSpec PrinterSpec Forms Api.
From Verif Require Interning Evidence.
Import ListNotations.
Open Scope string_scope.
Open Scope list_scope.

(** * Names of members *)

Definition copula_called (c : copula) : string :=
  match c with
  | Inheritance => "Inheritance" | Similarity => "Similarity" | Instance => "Instance" | Property => "Property"
  | InstanceProperty => "InstanceProperty" | Implication => "Implication"
  | PredictiveImplication => "PredictiveImplication" | ConcurrentImplication => "ConcurrentImplication"
  | RetrospectiveImplication => "RetrospectiveImplication" | Equivalence => "Equivalence"
  | PredictiveEquivalence => "PredictiveEquivalence" | ConcurrentEquivalence => "ConcurrentEquivalence"
  end.

Definition connector_called (c : connector) : string :=
  match c with
  | Conjunction => "Conjunction" | Disjunction => "Disjunction" | Product => "Product"
  | ParallelEvents => "ParallelEvents" | SequentialEvents => "SequentialEvents"
  | IntensionalIntersection => "IntensionalIntersection" | ExtensionalIntersection => "ExtensionalIntersection"
  | ExtensionalDifference => "ExtensionalDifference" | IntensionalDifference => "IntensionalDifference"
  | Negation => "Negation" | IntensionalSet => "IntensionalSet" | ExtensionalSet => "ExtensionalSet"
  | IntensionalImage => "IntensionalImage" | ExtensionalImage => "ExtensionalImage" | CList => "List"
  end.

(** * Expressions that make terms *)

Definition term_call (s : string) : expr := Call "Term" [Literal (PyStr s)].
Definition statement_call (a : expr) (c : string) (b : expr) : expr := Call "Statement" [a; Member "Copula" c; b].
Definition compound_call (c : string) (l : list expr) : expr := Call "Compound" (Member "Connector" c :: l).

(* The expression says in Python what the form says in Narsese. *)
Inductive denotes : expr -> form -> Prop :=
  | D_word s : denotes (term_call s) (Word s)
  | D_relation x c a b ea eb : denotes ea a -> denotes eb b ->
      denotes (statement_call ea (copula_called c) eb) (Relation x c a b)
  | D_instance x a b ea eb : denotes ea a -> denotes eb b ->
      denotes (statement_call (compound_call "ExtensionalSet" [ea]) "Inheritance" eb) (Relation x Instance a b)
  | D_property x a b ea eb : denotes ea a -> denotes eb b ->
      denotes (statement_call ea "Inheritance" (compound_call "IntensionalSet" [eb])) (Relation x Property a b)
  | D_both x a b ea eb : denotes ea a -> denotes eb b ->
      denotes (statement_call (compound_call "ExtensionalSet" [ea]) "Inheritance" (compound_call "IntensionalSet" [eb]))
        (Relation x InstanceProperty a b)
  | D_compound f c l es : assembly f = Some (c, l) -> all_denote es l ->
      denotes (compound_call (connector_called c) es) f
with all_denote : list expr -> list form -> Prop :=
  | D_none : all_denote [] []
  | D_more e es f l : denotes e f -> all_denote es l -> all_denote (e :: es) (f :: l).

(* A member of an enum is used. *)
Inductive used (enum name : string) : expr -> Prop :=
  | U_member : used enum name (Member enum name)
  | U_argument f l e : In e l -> used enum name e -> used enum name (Call f l)
  | U_object e n : used enum name e -> used enum name (Get e n).

Definition wrapping (c : copula) : Prop := wraps_subject c \/ wraps_predicate c.

(* No member is used that does not stand for what its name says. *)
Definition straight (e : expr) : Prop :=
  ~ used "Connector" "ExtensionalDifference" e /\
  (forall c, wrapping c -> ~ used "Copula" (copula_called c) e).

(* Names of atoms: not those of operators, and without NUL. *)
Definition no_nul (s : string) : Prop := ~ In "000"%char (list_ascii_of_string s).
Definition usual_name (s : string) : Prop := ~ operator_name s /\ no_nul s.

(* Nested calls of the three constructors. *)
Inductive constructs : expr -> Prop :=
  | K_term s : usual_name s -> constructs (term_call s)
  | K_statement a c b : constructs a -> constructs b -> constructs (statement_call a (copula_called c) b)
  | K_compound c l : Forall constructs l -> constructs (compound_call (connector_called c) l).

(* The texts in an expression. *)
Fixpoint texts (e : expr) : list string :=
  match e with
  | Literal (PyStr s) => [s]
  | Literal _ | Member _ _ => []
  | Call _ l => concat (map texts l)
  | Get x _ => texts x
  end.

(** * Arguments *)

(* Terms, sentences and tasks: the objects shown by the interpreter. *)
Inductive expressive : object -> Prop :=
  | E_term t : expressive (PyTerm t)
  | E_sentence s d : expressive (PySentence s d)
  | E_task t : expressive (PyTask t).

(* Numbers and texts of Python, None, and the objects of the module. *)
Definition of_module (o : object) : Prop :=
  o <> PyNone /\ (forall x, o <> PyFloat x) /\ (forall s, o <> PyStr s).

(* The functions of the module *)
Definition functions : list string :=
  ["Term"; "Statement"; "Compound"; "Truth"; "Budget"; "Budget.quality_from_truth"; "Sentence"; "parse"; "repr"; "__repr__"].

(* What the functions want. *)
Inductive accepts : string -> list object -> Prop :=
  | A_term s : accepts "Term" [PyStr s]
  | A_anonymous : accepts "Term" []
  | A_statement s c p : accepts "Statement" [PyTerm s; PyCopula c; PyTerm p]
  | A_compound c l : accepts "Compound" (PyConnector c :: map PyTerm l)
  | A_truth f c : accepts "Truth" [PyFloat f; PyFloat c]
  | A_truth3 f c k : accepts "Truth" [PyFloat f; PyFloat c; PyFloat k]
  | A_budget l : (length l <= 3)%nat -> accepts "Budget" (map PyFloat l)
  | A_quality t : accepts "Budget.quality_from_truth" [PyTruth t]
  | A_sentence t p v : accepts "Sentence" [PyTerm t; PyPunctuation p; PyTruth v; PyNone]
  | A_open t p : accepts "Sentence" [PyTerm t; PyPunctuation p; PyNone; PyNone]
  | A_parse s : accepts "parse" [PyStr s]
  | A_repr o : accepts "repr" [o]
  | A_shown o : expressive o -> accepts "__repr__" [o; PyNone]
  | A_other o : ~ expressive o -> accepts "__repr__" [o].

(* Arguments taken for pointers that they are not. *)
Inductive mistaken : string -> list object -> Prop :=
  | P_null : mistaken "Budget.quality_from_truth" [PyNone]
  | P_object o x : expressive o -> of_module x -> mistaken "__repr__" [o; x].

(** * Texts *)

Inductive kind_called : term -> string -> Prop :=
  | G_term op a : kind_called (Atom op a) "Term"
  | G_interval n : kind_called (Itv n) "Term"
  | G_variable k i : kind_called (Var k i) "Variable"
  | G_statement c s p : kind_called (Stmt c s p) "Statement"
  | G_compound c l : kind_called (Comp c l) "Compound".

(* The names in the symbol table. *)
Definition names_in (st : state) : Z -> option string := Printer.dictionary_of (Interning.tab (atoms st)).

(* x.__repr__(None) *)
Definition show_call (e : expr) : expr := Call "__repr__" [e; Literal PyNone].

Definition punctuation_called (p : punctuation) : string :=
  match p with Judgement => "Judgement" | Question => "Question" | Goal => "Goal" | Quest => "Quest" end.

Definition sentence_call (t : term) (p : punctuation) (v : option (truth ieee)) : expr :=
  Call "Sentence" [Literal (PyTerm t); Member "Punctuation" (punctuation_called p);
    Literal (match v with Some v => PyTruth v | None => PyNone end); Literal PyNone].

(* Sentences that have no truth value to show, or one that is looked for in the
   wrong place. *)
Definition unprintable (p : punctuation) (v : option (truth ieee)) : Prop :=
  p = Goal \/ p = Judgement /\ v = None.

(* The truth value of a judgement, with three places. *)
Definition truth_text (p : punctuation) (v : option (truth ieee)) (s : string) : Prop :=
  match p, v with
  | Judgement, Some v => exists f c, s = ("%" ++ f ++ ";" ++ c ++ "%")%string /\
      decimal 3 (fr ieee v : float32) f /\ decimal 3 (co ieee v : float32) c
  | _, _ => s = ""
  end.

(** * Numbers *)

(* The nearest float, a tie to the even one. *)
Definition nearest_single (v : R) : R := round radix2 (FLT_exp (-149) 24) ZnearestE v.

(* A double that does not become infinite as a float. *)
Definition moderate (x : float64) : Prop := is_finite x = true /\ (Rabs (nearest_single (B2R x)) < bpow radix2 128)%R.

(* Fields of Truth and Budget by their types. *)
Inductive single_field : object -> string -> Prop :=
  | H_truth t n : In n ["f"; "c"; "k"] -> single_field (PyTruth t) n
  | H_budget b : single_field (PyBudget b) "q".

Inductive double_field : object -> string -> Prop :=
  | H_double b n : In n ["p"; "d"] -> double_field (PyBudget b) n.
