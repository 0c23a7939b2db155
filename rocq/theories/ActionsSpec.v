(* Specification vocabulary for the semantic actions. *)
From Coq Require Import ZArith String Ascii List Bool Reals.
From Flocq Require Import Core BinarySingleNaN.
From Verif Require Import Base Enums Term Float Truth NumeralSpec Parser Actions.
From Verif Require Interning.
Import ListNotations.
Open Scope string_scope.
Open Scope list_scope.

(* The types behind the untyped pointers. *)
Inductive kind :=
  | KText | KString | KNumber | KTerm | KCopula | KConnector | KTime | KTruth
  | KBudget | KSentence | KTask.

Definition kind_of (v : value) : option kind :=
  match v with
  | VText _ => Some KText
  | VString _ => Some KString
  | VNumber _ => Some KNumber
  | VTerm _ => Some KTerm
  | VCopula _ => Some KCopula
  | VConnector _ => Some KConnector
  | VTime _ => Some KTime
  | VTruth _ => Some KTruth
  | VBudget _ => Some KBudget
  | VSentence _ => Some KSentence
  | VTask _ => Some KTask
  | VNull => None
  end.

(* At least n terms. *)
Definition terms (n : nat) (ks : list kind) : Prop :=
  exists m, (n <= m)%nat /\ ks = repeat KTerm m.

(* The arguments each action of Narsese/Parser/NarseseParser.cpp casts its
   pointers to: their number and kinds. *)
Inductive takes : string -> list kind -> Prop :=
  | T_task : takes "task" [KSentence]
  | T_task_budget : takes "task" [KBudget; KSentence]
  | T_sentence n : In n ["judgement"; "question"; "goal"; "quest"] -> takes n [KTerm]
  | T_sentence_tense n : In n ["judgement"; "question"; "goal"; "quest"] -> takes n [KTerm; KTime]
  | T_sentence_truth n : In n ["judgement"; "goal"] -> takes n [KTerm; KTruth]
  | T_sentence_both n : In n ["judgement"; "goal"] -> takes n [KTerm; KTime; KTruth]
  | T_statement : takes "statement" [KTerm; KCopula; KTerm]
  | T_operation1 ks : terms 0 ks -> takes "statement_operation1" (KTerm :: ks)
  | T_operation2 ks : terms 1 ks -> takes "statement_operation2" (KString :: ks)
  | T_none n : In n ["inheritance"; "similarity"; "instance"; "property"; "instance_property";
                     "implication"; "predictive_implication"; "concurrent_implication";
                     "retrospective_implication"; "equivalence"; "predictive_equivalence";
                     "concurrent_equivalence"; "con_conjunction"; "con_disjunction";
                     "con_parallel_events"; "con_sequential_events"; "con_product";
                     "con_intensional_intersection"; "con_extensional_intersection";
                     "con_extensional_difference"; "con_intensional_difference"; "con_int_set";
                     "con_ext_set"; "con_negation"; "con_int_image"; "con_ext_image";
                     "tense_future"; "tense_present"; "tense_past"] -> takes n []
  | T_term n : In n ["variable_term"; "compound_term"; "statement_term"; "multi_infix"] -> takes n [KTerm]
  | T_word n : In n ["atom_term"; "operation"; "independent_var"; "dependent_var"; "query_var"] ->
      takes n [KString]
  | T_number n : In n ["interval"; "tense_time"] -> takes n [KNumber]
  | T_prefix n ks : In n ["set"; "int_image"; "ext_image"; "multi_prefix"] -> terms 1 ks ->
      takes n (KConnector :: ks)
  | T_negation : takes "negation" [KConnector; KTerm]
  | T_many n ks : In n ["multi_prefix_product"; "multi_prod_expr"; "multi_disj_expr"; "multi_conj_expr";
                        "multi_sequential_expr"; "multi_parallel_expr"; "multi_intint_expr";
                        "multi_extint_expr"] -> terms 2 ks -> takes n ks
  | T_single_prefix : takes "single_prefix" [KConnector; KTerm; KTerm]
  | T_single_infix : takes "single_infix" [KTerm; KConnector; KTerm]
  | T_numbers n m : In n ["truth"; "budget"] -> (1 <= m <= 3)%nat -> takes n (repeat KNumber m)
  | T_token n : In n ["string_raw"; "string"; "quality"; "durability"; "priority"; "k_evidence";
                      "confidence"; "frequency"; "integer"] -> takes n [KText].

(* n is a node of the tree t, t itself included. *)
Inductive within (n : ast) : ast -> Prop :=
  | W_self : within n n
  | W_child name kids k : In k kids -> within n k -> within n (Node name kids).

(* The number written as s is kept: read to the nearest double, then stored in
   the nearest float. *)
Definition keeps (s : string) (x : float32) : Prop :=
  exists v y, reads (list_ascii_of_string s) v /\
    is_finite y = true /\ Bsign y = false /\
    B2R y = round radix2 (FLT_exp (-1074) 53) ZnearestE v /\ x = to32 y.

(* Kept when written, otherwise the default. *)
Definition kept (s : option string) (default : float32) (x : float32) : Prop :=
  match s with
  | Some s => keeps s x
  | None => x = default
  end.

(* A leaf that may be missing. *)
Definition optional (name : string) (s : option string) : list ast :=
  match s with Some s => [Leaf name s] | None => [] end.

(* The number n/d as a float. *)
Definition literal (n d : Z) : float32 := to32 (dfrac ieee n d).

Definition sentence_name (p : punctuation) : string :=
  match p with
  | Judgement => "judgement" | Question => "question" | Goal => "goal" | Quest => "quest"
  end.

(* The defaults by punctuation. *)
Definition default_durability (p : punctuation) : float32 :=
  match p with Judgement => literal 5 10 | _ => literal 9 10 end.

Definition default_quality (s : sentence) : float32 :=
  match truth_of s with
  | Some t => to32 (quality_from_truth ieee t)
  | None => literal 1 1
  end.

(* The budget of a task, told from the syntax tree of its input. *)
Definition budget_told (n : ast) (tk : task) : Prop :=
  exists kids, let s := Node (sentence_name (punct (sentence_of tk))) kids in
    n = Node "task" [s] /\
      budget_of tk = Budget (to64 (literal 8 10)) (to64 (literal 8 10)) (literal 5 10)
    \/
    exists p d q fp fd,
      n = Node "task" [Node "budget" (Leaf "priority" p :: optional "durability" d ++ optional "quality" q); s] /\
      (d = None -> q = None) /\
      priority (budget_of tk) = to64 fp /\ keeps p fp /\
      durability (budget_of tk) = to64 fd /\
        kept d (default_durability (punct (sentence_of tk))) fd /\
      kept q (default_quality (sentence_of tk)) (quality (budget_of tk)).

(* The truth value of a task, told from the syntax tree of its input. *)
Definition tense_name (s : string) : Prop :=
  In s ["tense_time"; "tense_future"; "tense_present"; "tense_past"].

Definition truth_told (n : ast) (tk : task) : Prop :=
  exists budget c tense truth, let p := punct (sentence_of tk) in
    n = Node "task" (budget ++ [Node (sentence_name p) (c :: tense ++ truth)]) /\
    (tense = [] \/ exists e l, tense = [Node e l] /\ tense_name e) /\
    match p with
    | Judgement | Goal =>
        exists t, truth_of (sentence_of tk) = Some t /\
        (truth = [] /\ t = Truth.Truth ieee (literal 1 1) (literal 9 10) (literal 1 1) \/
         exists f co k, 
           truth = [Node "truth" (Leaf "frequency" f :: optional "confidence" co ++ optional "k_evidence" k)] /\
           (co = None -> k = None) /\
           keeps f (Truth.fr ieee t) /\ kept co (literal 9 10) (Truth.co ieee t) /\
           kept k (literal 1 1) (Truth.kk ieee t))
    | Question | Quest => truth = [] /\ truth_of (sentence_of tk) = None
    end.

(* The names of the actions for variables. *)
Definition variable_name (k : vkind) : string :=
  match k with
  | Independent => "independent_var" | Dependent => "dependent_var" | Query => "query_var"
  end.

(* The names of the variables of kind k in a tree, from left to right. *)
Fixpoint names (k : vkind) (n : ast) : list string :=
  match n with
  | Leaf _ _ => []
  | Node e kids =>
      if (e =? variable_name k)%string
      then match kids with [Leaf _ s] => [s] | _ => [] end
      else concat (map (names k) kids)
  end.

(* Without repetitions, in the order of first occurrence. *)
Definition firsts (l : list string) : list string :=
  fold_left (fun seen s => if existsb (String.eqb s) seen then seen else seen ++ [s]) l [].

(* The table in which the parser numbers variables of kind k. *)
Definition table (k : vkind) (st : state) : list (string * Z) :=
  match k with Independent => ivars st | Dependent => dvars st | Query => qvars st end.

Section Visits.
Variable ord : list (option connector * list term) -> list (option connector * list term).
Variable fresh : Interning.world -> Z.

(* Evaluating the tree n from state st comes to evaluating the node m from
   state st1. *)
Inductive visits (st : state) (n : ast) : state -> ast -> Prop :=
  | V_self : visits st n st n
  | V_child e before k after st1 vs st2 m :
      n = Node e (before ++ k :: after) ->
      transform_all ord fresh st before = Ok (st1, vs) ->
      visits st1 k st2 m -> visits st n st2 m.
End Visits.

(* The actions for copulas and the copulas they stand for (NarseseParser.cpp
   lines 342-413). *)
Definition copula_actions : list (string * copula) :=
  [("inheritance", Inheritance); ("similarity", Similarity); ("instance", Instance);
   ("property", Property); ("instance_property", InstanceProperty);
   ("implication", Implication); ("predictive_implication", PredictiveImplication);
   ("concurrent_implication", ConcurrentImplication);
   ("retrospective_implication", RetrospectiveImplication); ("equivalence", Equivalence);
   ("predictive_equivalence", PredictiveEquivalence);
   ("concurrent_equivalence", ConcurrentEquivalence)].

(* The statement that a copula stands for: {-- wraps the subject in an
   extensional set, --] the predicate in an intensional set, {-] both. *)
Definition wraps_subject (c : copula) : Prop := c = Instance \/ c = InstanceProperty.
Definition wraps_predicate (c : copula) : Prop := c = Property \/ c = InstanceProperty.

Definition meant (c : copula) (s p : term) : term :=
  match c with
  | Instance => Stmt Inheritance (Comp ExtensionalSet [s]) p
  | Property => Stmt Inheritance s (Comp IntensionalSet [p])
  | InstanceProperty => Stmt Inheritance (Comp ExtensionalSet [s]) (Comp IntensionalSet [p])
  | _ => Stmt c s p
  end.

(* Signed whole numbers and their values. *)
Inductive whole : list ascii -> Z -> Prop :=
  | whole_plain a : a <> [] -> Forall decimal_digit a -> whole a (number a)
  | whole_minus a : a <> [] -> Forall decimal_digit a -> whole ("-"%char :: a) (- number a).

(* Inputs read one after another by one parser; the flag tells whether any of
   them ended in an exception. *)
Fixpoint history ord fresh (room : option nat) (st : state) (left : list ascii) (inputs : list string)
  : res (state * list ascii * bool) :=
  match inputs with
  | [] => Ok (st, left, false)
  | s :: inputs' =>
      bind (parse_task ord fresh room st left s) (fun '(st, left, _, thrown) =>
      bind (history ord fresh room st left inputs') (fun '(st, left, thrown') =>
      Ok (st, left, thrown || thrown')))
  end.
