(* From the syntax tree to a task: the traversal of the tree
   (Narsese/Parser/Parser.cpp) and the semantic actions
   (Narsese/Parser/NarseseParser.cpp).

   Actions exchange untyped pointers; a cast to the wrong type is undefined.
   Which atom gets which address is up to the allocator ([fresh]); [ord] is
   the order in which an unordered_map is walked when a compound is built (see
   Compound.v). *)
From Coq Require Import ZArith String Ascii List Bool.
From Flocq Require Import Core BinarySingleNaN.
From Verif Require Import Base Hash Enums Term Terms Compound Maps Float Truth Numeral.
From Verif Require Interning Evidence Parser.
Import ListNotations.
Local Open Scope Z_scope.
Open Scope list_scope.

(* Narsese/include/Budget.h lines 24-26 *)
Record budget := Budget { priority : float64; durability : float64; quality : float32 }.

(* Budget.h line 28: the parameters are floats *)
Definition new_budget (p d q : float64) : budget :=
  Budget (to64 (to32 p)) (to64 (to32 d)) (to32 q).

(* Narsese/include/Sentence.h lines 28-34 *)
Inductive punctuation := Judgement | Question | Goal | Quest.

(* Sentence.h lines 122-127, the members of Sentence; None is a null pointer.
   (desire of a Goal is another name of truth, line 168.) *)
Record sentence := Sentence {
  content : term;
  punct : punctuation;
  truth_of : option (truth ieee);
  stamp_of : Evidence.stamp
}.

(* Narsese/include/Task.h lines 22-23 *)
Record task := Task { budget_of : budget; sentence_of : sentence }.

(* What an untyped pointer between actions points to: the text of a token
   (char), std::string, double, pTerm, Copula, Connector, the pair (0, int),
   the pair (1, Truth), Budget, Sentence, Task; or the null pointer. *)
Inductive value :=
  | VText (s : string)
  | VString (s : string)
  | VNumber (x : float64)
  | VTerm (t : term)
  | VCopula (c : copula)
  | VConnector (c : connector)
  | VTime (n : Z)
  | VTruth (t : truth ieee)
  | VBudget (b : budget)
  | VSentence (s : sentence)
  | VTask (t : task)
  | VNull.

(* The parser's maps of variable names (Narsese/Parser/Parser.h lines 31-33),
   the symbol table with the atoms in use, the addresses of the atoms that are
   Operations, the clock and input counter with the evidential bases, and
   the member ast (narsese.h) as far as a failed traversal leaves it behind.
   Atoms met while an input is being read are kept until the end of the
   reading; the code lets go of those that a compound drops. *)
Record state := State {
  ivars : list (string * Z);
  dvars : list (string * Z);
  qvars : list (string * Z);
  atoms : Interning.world;
  operations : list Z;
  store : Evidence.store;
  pending : list Parser.ast
}.

Definition with_vars (st : state) (i d q : list (string * Z)) : state :=
  State i d q (atoms st) (operations st) (store st) (pending st).
Definition with_atoms (st : state) (w : Interning.world) (ops : list Z) : state :=
  State (ivars st) (dvars st) (qvars st) w ops (store st) (pending st).
Definition with_store (st : state) (s : Evidence.store) : state :=
  State (ivars st) (dvars st) (qvars st) (atoms st) (operations st) s (pending st).
Definition with_pending (st : state) (l : list Parser.ast) : state :=
  State (ivars st) (dvars st) (qvars st) (atoms st) (operations st) (store st) l.

(* The arguments of an action: a vector of pointers; None when the node has no
   children, the action then being given a reference made from a null pointer
   (Parser.cpp lines 94 and 98).  Making that reference is not yet counted as
   undefined here; reading through it is. *)
Definition arguments := option (list value).
Definition method := state -> arguments -> res (state * value).

(* args.size() and the elements from the i-th on *)
Definition all_args (a : arguments) : res (list value) :=
  match a with Some l => Ok l | None => UB end.

(* The casts *)
Definition as_term (v : value) : res term := match v with VTerm t => Ok t | _ => UB end.
Definition as_copula (v : value) : res copula := match v with VCopula c => Ok c | _ => UB end.
Definition as_connector (v : value) : res connector := match v with VConnector c => Ok c | _ => UB end.
Definition as_number (v : value) : res float64 := match v with VNumber x => Ok x | _ => UB end.
Definition as_string (v : value) : res string := match v with VString s => Ok s | _ => UB end.
Definition as_text (v : value) : res string := match v with VText s => Ok s | _ => UB end.
Definition as_budget (v : value) : res budget := match v with VBudget b => Ok b | _ => UB end.
Definition as_sentence (v : value) : res sentence := match v with VSentence s => Ok s | _ => UB end.

(* args[i], an index outside the vector being undefined *)
Definition arg (l : list value) (i : nat) : res value :=
  match nth_error l i with Some v => Ok v | None => UB end.

(* get() on every element, NarseseParser.cpp lines 59-65 *)
Fixpoint terms_of (l : list value) : res (list term) :=
  match l with
  | [] => Ok []
  | v :: l' => bind (as_term v) (fun t => bind (terms_of l') (fun ts => Ok (t :: ts)))
  end.

(* The constants of Config.cpp lines 5-26 that the actions use, all floats *)
Definition cfg (n d : Z) : float32 := to32 (dfrac ieee n d).
Definition cfg_priority := cfg 8 10.
Definition cfg_durability := cfg 8 10.
Definition cfg_quality := cfg 5 10.
Definition cfg_f := cfg 1 1.
Definition cfg_c := cfg 9 10.
Definition cfg_c_judgement := cfg 9 10.
Definition cfg_c_goal := cfg 9 10.
Definition cfg_k := cfg 1 1.
Definition cfg_p_judgement := cfg 8 10.
Definition cfg_d_judgement := cfg 5 10.
Definition cfg_p_question := cfg 9 10.
Definition cfg_d_question := cfg 9 10.
Definition cfg_p_quest := cfg 9 10.
Definition cfg_d_quest := cfg 9 10.
Definition cfg_p_goal := cfg 9 10.
Definition cfg_d_goal := cfg 9 10.
(* Config.cpp line 56, an unsigned int *)
Definition cfg_temporal_duration : Z := 5.

(* The literals -1.0, 1.0 and -0.5 *)
Definition minus_one : float64 := of_Z64 (-1).
Definition one_point : float64 := of_Z64 1.
Definition minus_half : float64 := dfrac ieee (-1) 2.

(* x < -0.5 for a double and for a float *)
Definition unset64 (x : float64) : bool := dlt ieee x minus_half.
Definition unset32 (x : float32) : bool := unset64 (to64 x).

(* NarseseParser.cpp lines 76-81, and likewise for the other punctuation:
   filling in what is missing.  q is a double. *)
Definition fill_budget (b : budget) (p d : float32) (q : float64) : budget :=
  Budget (if unset64 (priority b) then to64 p else priority b)
         (if unset64 (durability b) then to64 d else durability b)
         (if unset32 (quality b) then to32 q else quality b).

(* Lines 74-113.  A judgement or goal without truth value would make line 81
   or 90 follow a null pointer. *)
Definition finish_budget (b : budget) (s : sentence) : res budget :=
  let from_truth p d :=
    if unset32 (quality b) then
      match truth_of s with
      | Some t => Ok (fill_budget b p d (quality_from_truth ieee t))
      | None => UB
      end
    else Ok (fill_budget b p d one_point) in
  match punct s with
  | Judgement => from_truth cfg_p_judgement cfg_d_judgement
  | Goal => from_truth cfg_p_goal cfg_d_goal
  | Question => Ok (fill_budget b cfg_p_question cfg_d_question one_point)
  | Quest => Ok (fill_budget b cfg_p_quest cfg_d_quest one_point)
  end.

(* NarseseParser.cpp lines 68-118 *)
Definition make_task : method := fun st a =>
  bind (all_args a) (fun l =>
  let only := Nat.eqb (length l) 1 in
  bind (if only then Ok (Budget (to64 cfg_priority) (to64 cfg_durability) cfg_quality)
        else bind (arg l 0) as_budget) (fun b =>
  bind (bind (arg l (if only then 0 else 1)%nat) as_sentence) (fun s =>
  bind (finish_budget b s) (fun b => Ok (st, VTask (Task b s)))))).

(* Lines 128-145 and 211-228: the loop over the arguments after the first.
   tagged: the pair in the argument; every time makes a new stamp. *)
Fixpoint loop_marks (st : Evidence.store) (l : list value)
    (t : option (truth ieee)) (s : option Evidence.stamp)
  : res (Evidence.store * option (truth ieee) * option Evidence.stamp) :=
  match l with
  | [] => Ok (st, t, s)
  | VTime n :: l' =>
      let '(st, s) := Evidence.stamp5 st n (Evidence.to_int (Evidence.time st)) (-1) None false in
      loop_marks st l' t (Some s)
  | VTruth t :: l' => loop_marks st l' (Some t) s
  | _ => UB
  end.

(* Lines 147-150, 193-196, 230-233, 277-280 *)
Definition finish_stamp (st : Evidence.store) (s : option Evidence.stamp)
  : Evidence.store * Evidence.stamp :=
  match s with
  | Some s => (st, s)
  | None => Evidence.stamp_bool st true
  end.

(* Lines 152-164 and 235-247; c is c_judgement or c_goal *)
Definition finish_truth (t : option (truth ieee)) (c : float32) : truth ieee :=
  match t with
  | None => Truth.Truth ieee cfg_f cfg_c cfg_k
  | Some t =>
      Truth.Truth ieee (if unset32 (fr ieee t) then cfg_f else fr ieee t)
                       (if unset32 (co ieee t) then c else co ieee t)
                       (if unset32 (kk ieee t) then cfg_k else kk ieee t)
  end.

(* Lines 120-169 (judgement) and 203-252 (goal) *)
Definition make_belief (p : punctuation) (c : float32) : method := fun st a =>
  bind (all_args a) (fun l =>
  bind (bind (arg l 0) as_term) (fun t =>
  bind (loop_marks (store st) (skipn 1 l) None None) (fun '(m, tr, s) =>
  let '(m, s) := finish_stamp m s in
  Ok (with_store st m, VSentence (Sentence t p (Some (finish_truth tr c)) s))))).

(* Lines 171-201 (question) and 254-285 (quest): a pair with tag 1 would be
   ignored *)
Definition make_query (p : punctuation) : method := fun st a =>
  bind (all_args a) (fun l =>
  bind (bind (arg l 0) as_term) (fun t =>
  bind (loop_marks (store st) (skipn 1 l) None None) (fun '(m, _, s) =>
  let '(m, s) := finish_stamp m s in
  Ok (with_store st m, VSentence (Sentence t p None s))))).

(* Lines 342-413 and 633-716: actions that do not look at their arguments *)
Definition constant (v : value) : method := fun st _ => Ok (st, v).

(* Lines 414-420, 441-454 and 523-528: the argument is handed on *)
Definition pass : method := fun st a =>
  bind (all_args a) (fun l => bind (arg l 0) (fun v => Ok (st, v))).

(* Lines 414-420, 441-454 cast the argument to pTerm before handing it on *)
Definition pass_term : method := fun st a =>
  bind (all_args a) (fun l => bind (bind (arg l 0) as_term) (fun t => Ok (st, VTerm t))).

(* Lines 792-822.  Truth(double, double, double) converts to float, and so is
   CONFIG::k to double and back. *)
Definition make_truth : method := fun st a =>
  bind (all_args a) (fun l =>
  let nth i other := if Nat.ltb i (length l) then bind (arg l i) as_number else Ok other in
  bind (nth 0%nat minus_one) (fun f =>
  bind (nth 1%nat minus_one) (fun c =>
  bind (nth 2%nat (to64 cfg_k)) (fun k =>
  Ok (st, VTruth (Truth.Truth ieee (to32 f) (to32 c) (to32 k))))))).

(* Lines 823-854 *)
Definition make_budget : method := fun st a =>
  bind (all_args a) (fun l =>
  let nth i := if Nat.ltb i (length l) then bind (arg l i) as_number else Ok minus_one in
  bind (nth 0%nat) (fun p =>
  bind (nth 1%nat) (fun d =>
  bind (nth 2%nat) (fun q =>
  Ok (st, VBudget (new_budget p d q)))))).

(* Lines 855-868 *)
Definition make_string : method := fun st a =>
  bind (all_args a) (fun l => bind (bind (arg l 0) as_text) (fun s => Ok (st, VString s))).

(* Lines 869-910 *)
Definition make_number : method := fun st a =>
  bind (all_args a) (fun l => bind (bind (arg l 0) as_text) (fun s =>
  bind (stod s) (fun x => Ok (st, VNumber x)))).

(* Lines 476-484 *)
Definition make_interval : method := fun st a =>
  bind (all_args a) (fun l => bind (bind (arg l 0) as_number) (fun x =>
  bind (truncated x) (fun n => Ok (st, VTerm (Itv n))))).

(* Lines 765-772 *)
Definition make_time : method := fun st a =>
  bind (all_args a) (fun l => bind (bind (arg l 0) as_number) (fun x =>
  bind (truncated x) (fun n => Ok (st, VTime n)))).

(* Lines 724-728: names_map[str] = names_map.size() evaluates the size before
   the new entry is made (C++17 and later; CMakeLists.txt sets 20). *)
Definition number_of (names : list (string * Z)) (name : string) : list (string * Z) * Z :=
  let names := if has String.eqb name names then names
               else set String.eqb name (Z.of_nat (length names)) names in
  match lookup String.eqb name names with
  | Some i => (names, i)
  | None => (set String.eqb name 0 names, 0)
  end.

(* Lines 717-764 *)
Definition make_variable (k : vkind) : method := fun st a =>
  bind (all_args a) (fun l => bind (bind (arg l 0) as_string) (fun s =>
  let name := (vk_repr k ++ s)%string in
  match k with
  | Independent => let '(m, i) := number_of (ivars st) name in
                   Ok (with_vars st m (dvars st) (qvars st), VTerm (Var k i))
  | Dependent => let '(m, i) := number_of (dvars st) name in
                 Ok (with_vars st (ivars st) m (qvars st), VTerm (Var k i))
  | Query => let '(m, i) := number_of (qvars st) name in
             Ok (with_vars st (ivars st) (dvars st) m, VTerm (Var k i))
  end)).

Section Actions.
Variable ord : list (option connector * list term) -> list (option connector * list term).
Variable fresh : Interning.world -> Z.

(* The pTerm that the symbol table handed out last *)
Definition last_atom (w : Interning.world) : res Z :=
  match Interning.handles w with h :: _ => Ok (Interning.hat h) | [] => UB end.

(* Lines 421-440.  When the name is new the object is a Term. *)
Definition make_atom : method := fun st a =>
  bind (all_args a) (fun l => bind (bind (arg l 0) as_string) (fun s =>
  let new := fresh (atoms st) in
  let ops := if Interning.check_by_name (Interning.tab (atoms st)) s then operations st
             else filter (fun x => negb (x =? new)) (operations st) in
  bind (Interning.create (atoms st) s new) (fun w =>
  bind (last_atom w) (fun x =>
  Ok (with_atoms st w ops, VTerm (Atom (existsb (Z.eqb x) ops) x)))))).

(* Lines 455-475.  When the name (without ^) is new the object is an
   Operation. *)
Definition make_operation : method := fun st a =>
  bind (all_args a) (fun l => bind (bind (arg l 0) as_string) (fun s =>
  let new := fresh (atoms st) in
  let ops := if Interning.check_by_name (Interning.tab (atoms st)) s then operations st
             else new :: operations st in
  bind (Interning.parse_op (atoms st) s new) (fun w =>
  bind (last_atom w) (fun x =>
  Ok (with_atoms st w ops, VTerm (Atom (existsb (Z.eqb x) ops) x)))))).

(* Lines 287-316 *)
Definition make_statement : method := fun st a =>
  bind (all_args a) (fun l =>
  bind (bind (arg l 0) as_term) (fun s =>
  bind (bind (arg l 1) as_copula) (fun c =>
  bind (bind (arg l 2) as_term) (fun p =>
  match c with
  | Instance =>
      bind (compound ord false ExtensionalSet [s]) (fun s =>
      Ok (st, VTerm (Stmt Inheritance s p)))
  | Property =>
      bind (compound ord false IntensionalSet [p]) (fun p =>
      Ok (st, VTerm (Stmt Inheritance s p)))
  | InstanceProperty =>
      bind (compound ord false ExtensionalSet [s]) (fun s =>
      bind (compound ord false IntensionalSet [p]) (fun p =>
      Ok (st, VTerm (Stmt Inheritance s p))))
  | _ => Ok (st, VTerm (Stmt c s p))
  end)))).

(* Lines 318-332 *)
Definition operation1 (st : state) (l : list value) : res (state * value) :=
  bind (terms_of (skipn 1 l)) (fun ts =>
  bind (bind (arg l 0) as_term) (fun op =>
  bind (compound ord true Product ts) (fun s =>
  Ok (st, VTerm (Stmt Inheritance s op))))).

Definition make_operation1 : method := fun st a => bind (all_args a) (operation1 st).

(* Lines 333-341 *)
Definition make_operation2 : method := fun st a =>
  bind (all_args a) (fun l => bind (arg l 0) (fun v =>
  bind (make_operation st (Some [v])) (fun '(st, op) =>
  operation1 st (op :: skipn 1 l)))).

(* Lines 485-500 (set) and 537-552 (multi_prefix; int_image and ext_image,
   lines 510-522, call it) *)
Definition prefix (st : state) (l : list value) : res (state * value) :=
  bind (bind (arg l 0) as_connector) (fun c =>
  bind (terms_of (skipn 1 l)) (fun ts =>
  bind (compound ord true c ts) (fun t => Ok (st, VTerm t)))).

Definition make_prefix : method := fun st a => bind (all_args a) (prefix st).

(* Lines 529-536 and 573-632: the connector is put in front *)
Definition make_infix (c : connector) : method := fun st a =>
  bind (all_args a) (fun l => prefix st (VConnector c :: l)).

(* Lines 501-509 *)
Definition make_negation : method := fun st a =>
  bind (all_args a) (fun l =>
  bind (bind (arg l 0) as_connector) (fun c =>
  bind (bind (arg l 1) as_term) (fun t =>
  bind (compound ord true c [t]) (fun t => Ok (st, VTerm t))))).

(* Lines 553-562 (single_prefix: con 0, first 1) and 563-572 (single_infix:
   con 1, first 0) *)
Definition make_single (con first : nat) : method := fun st a =>
  bind (all_args a) (fun l =>
  bind (bind (arg l con) as_connector) (fun c =>
  bind (bind (arg l first) as_term) (fun t1 =>
  bind (bind (arg l 2) as_term) (fun t2 =>
  bind (compound ord true c [t1; t2]) (fun t => Ok (st, VTerm t)))))).

(* NarseseParser.cpp lines 914-988: the registered actions *)
Definition methods : list (string * method) :=
  [("task", make_task);
   ("judgement", make_belief Judgement cfg_c_judgement);
   ("question", make_query Question);
   ("goal", make_belief Goal cfg_c_goal);
   ("quest", make_query Quest);
   ("statement", make_statement);
   ("statement_operation1", make_operation1);
   ("statement_operation2", make_operation2);
   ("inheritance", constant (VCopula Inheritance));
   ("similarity", constant (VCopula Similarity));
   ("instance", constant (VCopula Instance));
   ("property", constant (VCopula Property));
   ("instance_property", constant (VCopula InstanceProperty));
   ("implication", constant (VCopula Implication));
   ("predictive_implication", constant (VCopula PredictiveImplication));
   ("concurrent_implication", constant (VCopula ConcurrentImplication));
   ("retrospective_implication", constant (VCopula RetrospectiveImplication));
   ("equivalence", constant (VCopula Equivalence));
   ("predictive_equivalence", constant (VCopula PredictiveEquivalence));
   ("concurrent_equivalence", constant (VCopula ConcurrentEquivalence));
   ("variable_term", pass_term);
   ("atom_term", make_atom);
   ("compound_term", pass_term);
   ("statement_term", pass_term);
   ("operation", make_operation);
   ("interval", make_interval);
   ("set", make_prefix);
   ("negation", make_negation);
   ("int_image", make_prefix);
   ("ext_image", make_prefix);
   ("multi_infix", pass);
   ("multi_prefix_product", make_infix Product);
   ("multi_prefix", make_prefix);
   ("single_prefix", make_single 0 1);
   ("single_infix", make_single 1 0);
   ("multi_prod_expr", make_infix Product);
   ("multi_disj_expr", make_infix Disjunction);
   ("multi_conj_expr", make_infix Conjunction);
   ("multi_sequential_expr", make_infix SequentialEvents);
   ("multi_parallel_expr", make_infix ParallelEvents);
   ("multi_intint_expr", make_infix IntensionalIntersection);
   ("multi_extint_expr", make_infix ExtensionalIntersection);
   ("con_conjunction", constant (VConnector Conjunction));
   ("con_disjunction", constant (VConnector Disjunction));
   ("con_parallel_events", constant (VConnector ParallelEvents));
   ("con_sequential_events", constant (VConnector SequentialEvents));
   ("con_product", constant (VConnector Product));
   ("con_intensional_intersection", constant (VConnector IntensionalIntersection));
   ("con_extensional_intersection", constant (VConnector ExtensionalIntersection));
   ("con_extensional_difference", constant (VConnector ExtensionalDifference));
   ("con_intensional_difference", constant (VConnector IntensionalDifference));
   ("con_int_set", constant (VConnector IntensionalSet));
   ("con_ext_set", constant (VConnector ExtensionalSet));
   ("con_negation", constant (VConnector Negation));
   ("con_int_image", constant (VConnector IntensionalImage));
   ("con_ext_image", constant (VConnector ExtensionalImage));
   ("independent_var", make_variable Independent);
   ("dependent_var", make_variable Dependent);
   ("query_var", make_variable Query);
   ("tense_time", make_time);
   ("tense_future", constant (VTime (Evidence.marked_time cfg_temporal_duration Evidence.MFuture)));
   ("tense_present", constant (VTime (Evidence.marked_time cfg_temporal_duration Evidence.MPresent)));
   ("tense_past", constant (VTime (Evidence.marked_time cfg_temporal_duration Evidence.MPast)));
   ("truth", make_truth);
   ("budget", make_budget);
   ("string_raw", make_string);
   ("string", make_string);
   ("quality", make_number);
   ("durability", make_number);
   ("priority", make_number);
   ("k_evidence", make_number);
   ("confidence", make_number);
   ("frequency", make_number);
   ("integer", make_number)]%string.

(* Parser.h lines 71-78 (get_function) and the calls in Parser.cpp lines 85-101.
   The map is keyed by the addresses of string literals in two translation
   units; equal literals are taken to be merged. *)
Definition call (name : string) (st : state) (a : arguments) : res (state * value) :=
  match lookup String.eqb name methods with
  | Some f => f st a
  | None => Ok (st, VNull)
  end.

(* Parser.cpp lines 66-110 for one node, [transform_all] for a chain of
   siblings, which is worked off from left to right. *)
Fixpoint transform (st : state) (n : Parser.ast) {struct n} : res (state * value) :=
  match n with
  | Parser.Leaf emit token => call emit st (Some [VText token])
  | Parser.Node emit children =>
      bind ((fix go (st : state) (l : list Parser.ast) {struct l} : res (state * list value) :=
               match l with
               | [] => Ok (st, [])
               | n :: l' =>
                   bind (transform st n) (fun '(st, v) =>
                   bind (go st l') (fun '(st, vs) => Ok (st, v :: vs)))
               end) st children)
        (fun '(st, vs) => call emit st (match children with [] => None | _ => Some vs end))
  end.

Fixpoint transform_all (st : state) (l : list Parser.ast) : res (state * list value) :=
  match l with
  | [] => Ok (st, [])
  | n :: l' =>
      bind (transform st n) (fun '(st, v) =>
      bind (transform_all st l') (fun '(st, vs) => Ok (st, v :: vs)))
  end.

(* Parser.cpp lines 37-46 with NarseseParser.h lines 16-23: from the result of
   the parse to the task.  An exception leaves the tree in the member ast,
   where the next rejected input finds it (narsese.cpp line 779 assigns ast
   only when an input is accepted); the exception is part of the result here,
   so that the state it leaves behind can be told. *)
Definition finish (st : state) (o : Parser.outcome) : res (state * option value * bool) :=
  let st := with_vars st [] [] [] in
  let tree := match o with Parser.Accepted l => l | Parser.Rejected => pending st end in
  match tree with
  | [] => Ok (st, None, false)
  | _ =>
      match transform_all st tree with
      | Ok (st, v :: _) => Ok (with_pending st [], Some v, false)
      | Ok (_, []) => UB
      | Throw => Ok (with_pending st tree, None, true)
      | UB => UB
      | OutOfFuel => OutOfFuel
      end
  end.

(* One call of parse_task: the text left in the buffer goes along. *)
Definition parse_task (room : option nat) (st : state) (left : list ascii) (input : string)
  : res (state * list ascii * option value * bool) :=
  bind (Parser.parse room left input) (fun '(o, left) =>
  bind (finish st o) (fun '(st, v, thrown) => Ok (st, left, v, thrown))).

End Actions.
