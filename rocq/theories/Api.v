(* The Python module: constructors, attributes, parse and __repr__
   (Narsese.cpp and the pybind_* functions).  Calls go through pybind11: the
   overloads of a function are tried in turn, TypeError is raised when none
   takes the arguments; default arguments are only known when given with
   py::arg. *)
From Coq Require Import ZArith String Ascii List Bool.
From Verif Require Import Base Enums Term Compound Float Truth Actions Printer.
From Verif Require Evidence Interning.
Import ListNotations.
Open Scope string_scope.
Open Scope list_scope.


(* What Python has: None, numbers and texts of its own; members of the three
   enums; objects that hold a pTerm (Term, Statement and Compound), a Truth, a
   Budget, a pSentence, a pTask; iterators, as the list of what they yield.
   Of a Sentence it matters whether it is a Goal with the member desire
   (Sentence.h lines 165-174). *)
Inductive object :=
  | PyNone
  | PyFloat (x : float64)
  | PyStr (s : string)
  | PyCopula (c : copula)
  | PyConnector (c : connector)
  | PyPunctuation (p : punctuation)
  | PyTerm (t : term)
  | PyTruth (t : truth ieee)
  | PyBudget (b : budget)
  | PySentence (s : sentence) (desire : bool)
  | PyTask (t : task)
  | PyIterator (l : list term).

Inductive exception := TypeError | RuntimeError | SystemError | AttributeError.

(* How a call ends: with undefined behaviour (res), or with a value or an
   exception *)
Inductive outcome := Returned (o : object) | Raised (e : exception).

(* ---- enums ---- *)

(* Copula.cpp lines 17-32: each member is bound to the value of its name. *)
Definition py_copulas : list (string * copula) :=
  [("Inheritance", Inheritance); ("Similarity", Similarity); ("Instance", Instance); ("Property", Property);
   ("InstanceProperty", InstanceProperty); ("Implication", Implication);
   ("PredictiveImplication", PredictiveImplication); ("ConcurrentImplication", ConcurrentImplication);
   ("RetrospectiveImplication", RetrospectiveImplication); ("Equivalence", Equivalence);
   ("PredictiveEquivalence", PredictiveEquivalence); ("ConcurrentEquivalence", ConcurrentEquivalence)].

(* Sentence.cpp lines 18-23 *)
Definition py_punctuations : list (string * punctuation) :=
  [("Judgement", Judgement); ("Question", Question); ("Goal", Goal); ("Quest", Quest)].

Definition member_of {A} (make : A -> object) (l : list (string * A)) (name : string) : outcome :=
  match find (fun x => String.eqb (fst x) name) l with
  | Some (_, x) => Returned (make x)
  | None => Raised AttributeError
  end.

(* Copula.Inheritance and the like; Connector.cpp lines 10-25 are in Enums.v *)
Definition enum_member (enum name : string) : outcome :=
  if enum =? "Copula" then member_of PyCopula py_copulas name
  else if enum =? "Connector" then member_of PyConnector (map fst py_connectors) name
  else if enum =? "Punctuation" then member_of PyPunctuation py_punctuations name
  else Raised AttributeError.

(* ---- functions ---- *)

Section Module.
Variable ord : list (option connector * list term) -> list (option connector * list term).
Variable fresh : Interning.world -> Z.
Variable room : option nat.
(* What Python shows for other objects; for Truth and Budget it is made by fmt
   (Truth.h lines 62-65, Budget.cpp lines 17-18). *)
Variable other_text : object -> string.

(* c_str(): what a const char * shows of a string, up to the first NUL. *)
Fixpoint c_string (s : string) : string :=
  match s with
  | EmptyString => EmptyString
  | String c s' => if Ascii.eqb c "000" then EmptyString else String c (c_string s')
  end.

(* Term.cpp lines 86-90, Term(word): lines 18-40 as for the parser.  Term()
   (lines 81-85) is left out. *)
Definition new_term (st : state) (args : list object) : res (state * outcome) :=
  match args with
  | [PyStr s] =>
      let s := c_string s in
      let new := fresh (atoms st) in
      let ops := if Interning.check_by_name (Interning.tab (atoms st)) s then operations st
                 else filter (fun x => negb (Z.eqb x new)) (operations st) in
      bind (Interning.create (atoms st) s new) (fun w =>
      bind (last_atom w) (fun x =>
      Ok (with_atoms st w ops, Returned (PyTerm (Atom (existsb (Z.eqb x) ops) x)))))
  | _ => Ok (st, Raised TypeError)
  end.

(* Statement.cpp lines 18-22: no copula is treated in a special way.  None is
   no pTerm. *)
Definition new_statement (args : list object) : outcome :=
  match args with
  | [PyTerm s; PyCopula c; PyTerm p] => Returned (PyTerm (Stmt c s p))
  | _ => Raised TypeError
  end.

(* Compound.cpp lines 336-343: an argument that is no Term makes py::cast
   throw, which is passed on as RuntimeError; None loads as a null pointer,
   and the reference made of it counts as a failed overload. *)
Fixpoint cast_terms (args : list object) : exception + list term :=
  match args with
  | [] => inr []
  | PyTerm t :: args' => match cast_terms args' with inl e => inl e | inr l => inr (t :: l) end
  | PyNone :: _ => inl TypeError
  | _ :: _ => inl RuntimeError
  end.

Definition new_compound (args : list object) : res outcome :=
  match args with
  | PyConnector c :: args' =>
      match cast_terms args' with
      | inl e => Ok (Raised e)
      | inr l => bind (compound ord false c l) (fun t => Ok (Returned (PyTerm t)))
      end
  | _ => Ok (Raised TypeError)
  end.

(* Truth.cpp line 9: double parameters; Truth.h line 52: float; k is 1.0 *)
Definition new_truth (args : list object) : outcome :=
  match args with
  | [PyFloat f; PyFloat c] => Returned (PyTruth (Truth ieee (to32 f) (to32 c) (to32 (dfrac ieee 1 1))))
  | [PyFloat f; PyFloat c; PyFloat k] => Returned (PyTruth (Truth ieee (to32 f) (to32 c) (to32 k)))
  | _ => Raised TypeError
  end.

(* Budget.cpp lines 5-12, Budget.h lines 28 and 36: the parameters are
   floats, the defaults the doubles 0.9, 0.9, 0.5 *)
Definition make_budget (x y z : float64) : budget :=
  Budget (to64 (to32 x)) (to64 (to32 y)) (to32 z).

Definition new_budget (args : list object) : outcome :=
  let d := dfrac ieee 9 10 in
  match args with
  | [] => Returned (PyBudget (make_budget d d (dfrac ieee 1 2)))
  | [PyFloat x] => Returned (PyBudget (make_budget x d (dfrac ieee 1 2)))
  | [PyFloat x; PyFloat y] => Returned (PyBudget (make_budget x y (dfrac ieee 1 2)))
  | [PyFloat x; PyFloat y; PyFloat z] => Returned (PyBudget (make_budget x y z))
  | _ => Raised TypeError
  end.

(* Budget.cpp line 16: None is a null pointer, which is followed. *)
Definition quality_from_truth (args : list object) : res outcome :=
  match args with
  | [PyTruth t] => Ok (Returned (PyFloat (Truth.quality_from_truth ieee t)))
  | [PyNone] => UB
  | _ => Ok (Raised TypeError)
  end.

(* Sentence.cpp lines 33-37: a Sentence, whatever the punctuation; a Stamp
   cannot be made in Python, so only None can be given for it, and lines
   129-130 of Sentence.h make one. *)
Definition new_sentence (st : state) (args : list object) : state * outcome :=
  let make t p v :=
    let '(e, s) := Evidence.stamp_bool (store st) true in
    (with_store st e, Returned (PySentence (Sentence t p v s) false)) in
  match args with
  | [PyTerm t; PyPunctuation p; PyTruth v; PyNone] => make t p (Some v)
  | [PyTerm t; PyPunctuation p; PyNone; PyNone] => make t p None
  | _ => (st, Raised TypeError)
  end.

(* NarseseParser.cpp lines 991-1017: on failure an error is set and None
   returned, which Python answers with SystemError. *)
Definition parse_line (st : state) (rest : list ascii) (args : list object) : res (state * list ascii * outcome) :=
  match args with
  | [PyStr line] =>
      bind (parse_task ord fresh room st rest line) (fun '(st, rest, v, thrown) =>
      Ok (st, rest,
        if thrown then Raised SystemError
        else match v with
             | Some (VTask t) => Returned (PyTask t)
             | _ => Raised SystemError
             end))
  | _ => Ok (st, rest, Raised TypeError)
  end.

(* ---- attributes ---- *)

(* Term.cpp lines 91-130, Task.cpp lines 21-22, Truth.cpp lines 10-13,
   Budget.cpp lines 13-15.  Only a statement has a subject, a predicate and a
   copula. *)
Definition get_attribute (o : object) (name : string) : outcome :=
  match o with
  | PyTerm t =>
      if name =? "subject" then Returned (match t with Stmt _ s _ => PyTerm s | _ => PyNone end)
      else if name =? "predicate" then Returned (match t with Stmt _ _ p => PyTerm p | _ => PyNone end)
      else if name =? "copula" then Returned (match t with Stmt c _ _ => PyCopula c | _ => PyNone end)
      else if name =? "terms" then
        Returned (match t with Stmt _ s p => PyIterator [s; p] | Comp _ l => PyIterator l | _ => PyNone end)
      else Raised AttributeError
  | PyTask t =>
      if name =? "sentence" then
        Returned (PySentence (sentence_of t) (match punct (sentence_of t) with Goal => true | _ => false end))
      else if name =? "term" then Returned (PyTerm (content (sentence_of t)))
      else Raised AttributeError
  | PyTruth t =>
      if name =? "f" then Returned (PyFloat (to64 (fr ieee t)))
      else if name =? "c" then Returned (PyFloat (to64 (co ieee t)))
      else if name =? "k" then Returned (PyFloat (to64 (kk ieee t)))
      else if name =? "e" then Returned (PyFloat (expectation ieee t))
      else Raised AttributeError
  | PyBudget b =>
      if name =? "p" then Returned (PyFloat (priority b))
      else if name =? "d" then Returned (PyFloat (durability b))
      else if name =? "q" then Returned (PyFloat (to64 (Actions.quality b)))
      else Raised AttributeError
  | _ => Raised AttributeError
  end.

(* o.name = v: the object after it (def_readwrite, Truth.cpp lines 10-12,
   Budget.cpp lines 13-15; f, c, k and q are floats, p and d doubles) *)
Definition set_attribute (o : object) (name : string) (v : object) : outcome :=
  match o with
  | PyTruth t =>
      match v with
      | PyFloat x =>
          if name =? "f" then Returned (PyTruth (Truth ieee (to32 x) (co ieee t) (kk ieee t)))
          else if name =? "c" then Returned (PyTruth (Truth ieee (fr ieee t) (to32 x) (kk ieee t)))
          else if name =? "k" then Returned (PyTruth (Truth ieee (fr ieee t) (co ieee t) (to32 x)))
          else Raised AttributeError
      | _ => if existsb (String.eqb name) ["f"; "c"; "k"] then Raised TypeError else Raised AttributeError
      end
  | PyBudget b =>
      match v with
      | PyFloat x =>
          if name =? "p" then Returned (PyBudget (Budget x (durability b) (Actions.quality b)))
          else if name =? "d" then Returned (PyBudget (Budget (priority b) x (Actions.quality b)))
          else if name =? "q" then Returned (PyBudget (Budget (priority b) (durability b) (to32 x)))
          else Raised AttributeError
      | _ => if existsb (String.eqb name) ["p"; "d"; "q"] then Raised TypeError else Raised AttributeError
      end
  | _ => Raised AttributeError
  end.

(* ---- __repr__ ---- *)

(* Term.cpp lines 49-64 *)
Definition term_kind (t : term) : string :=
  match t with
  | Var _ _ => "Variable"
  | Atom _ _ | Itv _ => "Term"
  | Stmt _ _ _ => "Statement"
  | Comp _ _ => "Compound"
  end.

(* Sentence.cpp lines 6-13 with Interpreter.cpp lines 275-284: the truth value
   of a Goal is read from the member desire, which only a Goal has. *)
Definition sentence_text (dictionary : Z -> option string) (e : Evidence.store) (s : sentence) (desire : bool) : res string :=
  match punct s with
  | Goal => if desire then interpret_sentence dictionary false e s else UB
  | _ => interpret_sentence dictionary false e s
  end.

(* The five lambdas (Term.cpp lines 131-135, Statement.cpp 24-28,
   Compound.cpp 345-349, Sentence.cpp 39-43, Task.cpp 24-28) have two
   parameters and no py::arg: they want two arguments.  The second is a void
   pointer: None is null, and so the interpreter of the module is taken; the
   pointer to any other object of the module is taken for an Interpreter.
   Numbers and texts are no pointers. *)
Definition shown (st : state) (o : object) : res string :=
  let dictionary := dictionary_of (Interning.tab (atoms st)) in
  match o with
  | PyTerm t => bind (interpret dictionary false t) (fun s => Ok ("<" ++ term_kind t ++ ": " ++ s ++ ">")%string)
  | PySentence s desire => bind (sentence_text dictionary (store st) s desire) (fun s => Ok ("<Sentence: " ++ s ++ ">")%string)
  | PyTask t => bind (interpret_task dictionary false (store st) t) (fun s => Ok ("<Task: " ++ s ++ ">")%string)
  | o => Ok (other_text o)
  end.

Definition call_repr (st : state) (args : list object) : res outcome :=
  match args with
  | [o] =>
      match o with
      | PyTerm _ | PySentence _ _ | PyTask _ => Ok (Raised TypeError)
      | _ => bind (shown st o) (fun s => Ok (Returned (PyStr s)))
      end
  | [o; x] =>
      match o with
      | PyTerm _ | PySentence _ _ | PyTask _ =>
          match x with
          | PyNone => bind (shown st o) (fun s => Ok (Returned (PyStr s)))
          | PyFloat _ | PyStr _ => Ok (Raised TypeError)
          | _ => UB
          end
      | _ => Ok (Raised TypeError)
      end
  | _ => Ok (Raised TypeError)
  end.

(* repr(o) is o.__repr__() *)
Definition repr (st : state) (o : object) : res outcome := call_repr st [o].

(* ---- expressions ---- *)

(* What a program writes: texts, numbers and None; members of enums; calls;
   attributes. *)
Inductive expr :=
  | Literal (o : object)
  | Member (enum name : string)
  | Call (f : string) (args : list expr)
  | Get (x : expr) (name : string).

Definition call_function (st : state) (rest : list ascii) (f : string) (args : list object)
  : res (state * list ascii * outcome) :=
  let pure r := Ok (st, rest, r) in
  if f =? "Term" then bind (new_term st args) (fun '(st, r) => Ok (st, rest, r))
  else if f =? "Statement" then pure (new_statement args)
  else if f =? "Compound" then bind (new_compound args) pure
  else if f =? "Truth" then pure (new_truth args)
  else if f =? "Budget" then pure (new_budget args)
  else if f =? "Budget.quality_from_truth" then bind (quality_from_truth args) pure
  else if f =? "Sentence" then let '(st, r) := new_sentence st args in Ok (st, rest, r)
  else if f =? "parse" then parse_line st rest args
  else if f =? "__repr__" then bind (call_repr st args) pure
  else if f =? "repr" then match args with [o] => bind (repr st o) pure | _ => pure (Raised TypeError) end
  else pure (Raised AttributeError).

(* Arguments from left to right; the first exception ends it.  Objects are
   kept until the end. *)
Fixpoint evaluate (st : state) (rest : list ascii) (e : expr) : res (state * list ascii * outcome) :=
  match e with
  | Literal o => Ok (st, rest, Returned o)
  | Member enum name => Ok (st, rest, enum_member enum name)
  | Call f args =>
      let fix all st rest l :=
        match l with
        | [] => Ok (st, rest, inr [])
        | x :: l' =>
            bind (evaluate st rest x) (fun '(st, rest, r) =>
            match r with
            | Raised e => Ok (st, rest, inl e)
            | Returned o =>
                bind (all st rest l') (fun '(st, rest, r) =>
                Ok (st, rest, match r with inl e => inl e | inr os => inr (o :: os) end))
            end)
        end in
      bind (all st rest args) (fun '(st, rest, r) =>
      match r with
      | inl e => Ok (st, rest, Raised e)
      | inr os => call_function st rest f os
      end)
  | Get x name =>
      bind (evaluate st rest x) (fun '(st, rest, r) =>
      Ok (st, rest, match r with Raised e => Raised e | Returned o => get_attribute o name end))
  end.

End Module.
