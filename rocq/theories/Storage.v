(* The memory behind the pointers that the semantic actions exchange
   (Narsese/Parser/NarseseParser.cpp) and that the traversal of the syntax tree
   passes on (Narsese/Parser/Parser.cpp): what is allocated with new and given
   back with delete.

   Actions.v computes with the values behind the pointers; here the pointers
   themselves are modelled.  Addresses are handed out one after another and
   never again, so that using or deleting an object after its deletion always
   shows; new does not fail.  Not modelled as blocks: what a pTerm, a
   std::string, a vector or a Stamp owns in turn, the control blocks of
   shared_ptr, and the pTerm that the symbol table keeps for an atom (see
   Object.v, Interning.v and Evidence.v). *)
From Coq Require Import ZArith String Ascii List Bool.
From Flocq Require Import Core BinarySingleNaN.
From Verif Require Import Base Hash Enums Term Terms Compound Maps Float Truth Numeral Actions.
From Verif Require Interning Evidence Parser.
Import ListNotations.
Local Open Scope Z_scope.
Open Scope list_scope.

(* An untyped pointer (Parser.h line 22): null, to the token of a node of the
   syntax tree, to one of the constants of namespaces COPULA and CONNECTOR, or
   to something allocated with new. *)
Inductive pointer :=
  | Null
  | Token (s : string)
  | CopulaAt (c : copula)
  | ConnectorAt (c : connector)
  | At (a : Z).

(* The objects allocated with new in NarseseParser.cpp and Parser.cpp line 75:
   std::string, double, pTerm, std::tuple<int, signed int *> (0, p),
   std::tuple<int, Truth *> (1, p), signed int, Truth, Stamp, Budget, one of
   the four kinds of Sentence, Task, Args. *)
Inductive block :=
  | BString (s : string)
  | BDouble (x : float64)
  | BTerm (t : term)
  | BTimed (p : Z)
  | BValued (p : Z)
  | BInt (n : Z)
  | BTruth (t : truth ieee)
  | BStamp (s : Evidence.stamp)
  | BBudget (b : budget)
  | BSentence (t : term) (p : punctuation) (truth : option Z) (stamp : Z)
  | BTask (budget sentence : Z)
  | BArgs (l : list pointer).

(* The C++ types of these objects, and the types that they are deleted or read
   as: TPair is std::tuple<int, void *> (lines 133-134), TSentence the base
   class of the four kinds of sentence. *)
Inductive type :=
  | TString | TDouble | TTerm | TTimed | TValued | TPair | TInt | TTruth | TStamp
  | TBudget | TKind (p : punctuation) | TSentence | TTask | TArgs.

Definition type_of (b : block) : type :=
  match b with
  | BString _ => TString
  | BDouble _ => TDouble
  | BTerm _ => TTerm
  | BTimed _ => TTimed
  | BValued _ => TValued
  | BInt _ => TInt
  | BTruth _ => TTruth
  | BStamp _ => TStamp
  | BBudget _ => TBudget
  | BSentence _ p _ _ => TKind p
  | BTask _ _ => TTask
  | BArgs _ => TArgs
  end.

Record heap := Heap { top : Z; live : list (Z * block) }.

(* A computation on the memory; what it leaves behind is known also when it
   throws. *)
Definition M (A : Type) := heap -> heap * res A.

Definition ret {A} (a : A) : M A := fun h => (h, Ok a).
Definition lift {A} (r : res A) : M A := fun h => (h, r).
Definition mbind {A B} (m : M A) (f : A -> M B) : M B := fun h =>
  match m h with
  | (h, Ok a) => f a h
  | (h, UB) => (h, UB)
  | (h, Throw) => (h, Throw)
  | (h, OutOfFuel) => (h, OutOfFuel)
  end.
Notation "x <- m ;; k" := (mbind m (fun x => k)) (at level 61, m at next level, right associativity).
Notation "m ;;; k" := (mbind m (fun _ => k)) (at level 61, right associativity).

(* new *)
Definition new (b : block) : M Z := fun h =>
  (Heap (top h + 1) ((top h, b) :: live h), Ok (top h)).

Section Types.
(* Whether the letter of the C++ standard is followed, by which an object may
   not be read or deleted as another type just because the layouts agree. *)
Variable strict : bool.

(* Reading a T where the object is of type U.  A kind of sentence may be read
   as a Sentence (lines 73, 81, 90). *)
Definition may_read (T U : type) : bool :=
  match T, U with
  | TPair, (TTimed | TValued) => negb strict
  | TSentence, TKind _ => true
  | TString, TString | TDouble, TDouble | TTerm, TTerm | TInt, TInt | TTruth, TTruth
  | TStamp, TStamp | TBudget, TBudget | TTask, TTask | TArgs, TArgs => true
  | _, _ => false
  end.

(* Deleting as a T what is of type U.  Sentence has no virtual destructor
   (Sentence.h lines 120-139). *)
Definition may_delete (T U : type) : bool :=
  match T, U with
  | TSentence, TKind _ => negb strict
  | _, _ => may_read T U
  end.

(* Reading through a pointer cast to T * *)
Definition read (T : type) (p : pointer) : M block := fun h =>
  match p with
  | At a =>
      match lookup Z.eqb a (live h) with
      | Some b => (h, if may_read T (type_of b) then Ok b else UB)
      | None => (h, UB)
      end
  | _ => (h, UB)
  end.

(* delete (T * )p *)
Definition delete (T : type) (p : pointer) : M unit := fun h =>
  match p with
  | At a =>
      match lookup Z.eqb a (live h) with
      | Some b =>
          if may_delete T (type_of b) then (Heap (top h) (unset Z.eqb a (live h)), Ok tt)
          else (h, UB)
      | None => (h, UB)
      end
  | _ => (h, UB)
  end.

(* Writing a new value to an object of the same type *)
Definition write (p : pointer) (b : block) : M unit := fun h =>
  match p with
  | At a =>
      match lookup Z.eqb a (live h) with
      | Some b' =>
          if may_read (type_of b) (type_of b') then (Heap (top h) (set Z.eqb a b (live h)), Ok tt)
          else (h, UB)
      | None => (h, UB)
      end
  | _ => (h, UB)
  end.

(* args[i] *)
Definition parg (l : list pointer) (i : nat) : M pointer :=
  match nth_error l i with Some p => ret p | None => lift UB end.

(* The arguments as in Actions.v: no vector at all when the node has no
   children. *)
Definition parguments := option (list pointer).
Definition pmethod := state -> parguments -> M (state * pointer).
Definition all_pargs (a : parguments) : M (list pointer) :=
  match a with Some l => ret l | None => lift UB end.

(* NarseseParser.cpp lines 59-65 with pTerm *)
Definition get (p : pointer) : M term :=
  b <- read TTerm p ;;
  delete TTerm p ;;;
  match b with BTerm t => ret t | _ => lift UB end.

Fixpoint get_all (l : list pointer) : M (list term) :=
  match l with
  | [] => ret []
  | p :: l' => t <- get p ;; ts <- get_all l' ;; ret (t :: ts)
  end.

(* The references to constants, lines 291, 489, 505, 541, 557, 567 *)
Definition copula_at (p : pointer) : M copula :=
  match p with CopulaAt c => ret c | _ => lift UB end.
Definition connector_at (p : pointer) : M connector :=
  match p with ConnectorAt c => ret c | _ => lift UB end.
(* (char * )args[0], lines 858, 865 and 872-908 *)
Definition token_at (p : pointer) : M string :=
  match p with Token s => ret s | _ => lift UB end.
(* A double that is read and deleted, lines 796-812 and 828-844 *)
Definition take_number (p : pointer) : M float64 :=
  b <- read TDouble p ;;
  delete TDouble p ;;;
  match b with BDouble x => ret x | _ => lift UB end.
(* A string that is looked at and deleted later, lines 424, 458 and 720 *)
Definition string_at (p : pointer) : M string :=
  b <- read TString p ;;
  match b with BString s => ret s | _ => lift UB end.

(* Lines 74-113; only the quality of judgements and goals looks at the truth
   value. *)
Definition pfinish_budget (b : budget) (k : punctuation) (tr : option Z) : M budget :=
  let from_truth p d :=
    if unset32 (quality b) then
      match tr with
      | Some a =>
          x <- read TTruth (At a) ;;
          match x with BTruth t => ret (fill_budget b p d (quality_from_truth ieee t)) | _ => lift UB end
      | None => lift UB
      end
    else ret (fill_budget b p d one_point) in
  match k with
  | Judgement => from_truth cfg_p_judgement cfg_d_judgement
  | Goal => from_truth cfg_p_goal cfg_d_goal
  | Question => ret (fill_budget b cfg_p_question cfg_d_question one_point)
  | Quest => ret (fill_budget b cfg_p_quest cfg_d_quest one_point)
  end.

(* Lines 68-118 *)
Definition ptask : pmethod := fun st a =>
  l <- all_pargs a ;;
  let only := Nat.eqb (length l) 1 in
  b <- (if only then
          x <- new (BBudget (Budget (to64 cfg_priority) (to64 cfg_durability) cfg_quality)) ;; ret (At x)
        else parg l 0) ;;
  s <- parg l (if only then 0 else 1)%nat ;;
  x <- read TSentence s ;;
  y <- read TBudget b ;;
  match x, y, s, b with
  | BSentence _ k tr _, BBudget v, At sa, At ba =>
      v <- pfinish_budget v k tr ;;
      write b (BBudget v) ;;;
      t <- new (BTask ba sa) ;;
      ret (st, At t)
  | _, _, _, _ => lift UB
  end.

(* Lines 128-145 and 211-228, the loop over the arguments after the first *)
Fixpoint ploop (m : Evidence.store) (l : list pointer) (t : option Z) (s : option Z)
  : M (Evidence.store * option Z * option Z) :=
  match l with
  | [] => ret (m, t, s)
  | p :: l' =>
      x <- read TPair p ;;
      delete TPair p ;;;
      match x with
      | BTimed q =>
          y <- read TInt (At q) ;;
          delete TInt (At q) ;;;
          match y with
          | BInt n =>
              let '(m, e) := Evidence.stamp5 m n (Evidence.to_int (Evidence.time m)) (-1) None false in
              s <- new (BStamp e) ;;
              ploop m l' t (Some s)
          | _ => lift UB
          end
      | BValued q => ploop m l' (Some q) s
      | _ => lift UB
      end
  end.

(* Lines 180-191 and 263-275: the same with truth values passed over *)
Fixpoint ploop_query (m : Evidence.store) (l : list pointer) (s : option Z)
  : M (Evidence.store * option Z) :=
  match l with
  | [] => ret (m, s)
  | p :: l' =>
      x <- read TPair p ;;
      delete TPair p ;;;
      match x with
      | BTimed q =>
          y <- read TInt (At q) ;;
          delete TInt (At q) ;;;
          match y with
          | BInt n =>
              let '(m, e) := Evidence.stamp5 m n (Evidence.to_int (Evidence.time m)) (-1) None false in
              s <- new (BStamp e) ;;
              ploop_query m l' (Some s)
          | _ => lift UB
          end
      | BValued q => ploop_query m l' s
      | _ => lift UB
      end
  end.

(* Lines 147-150, 193-196, 230-233, 277-280 *)
Definition pfinish_stamp (m : Evidence.store) (s : option Z) : M (Evidence.store * Z) :=
  match s with
  | Some a => ret (m, a)
  | None =>
      let '(m, e) := Evidence.stamp_bool m true in
      a <- new (BStamp e) ;; ret (m, a)
  end.

(* Lines 152-164 and 235-247 *)
Definition pfinish_truth (t : option Z) (c : float32) : M Z :=
  match t with
  | None => new (BTruth (finish_truth None c))
  | Some a =>
      x <- read TTruth (At a) ;;
      match x with
      | BTruth v => write (At a) (BTruth (finish_truth (Some v) c)) ;;; ret a
      | _ => lift UB
      end
  end.

(* Lines 120-169 (judgement) and 203-252 (goal) *)
Definition pbelief (k : punctuation) (c : float32) : pmethod := fun st a =>
  l <- all_pargs a ;;
  p <- parg l 0 ;;
  t <- get p ;;
  r <- ploop (store st) (skipn 1 l) None None ;;
  let '(m, tr, s) := r in
  q <- pfinish_stamp m s ;;
  let '(m, s) := q in
  tr <- pfinish_truth tr c ;;
  x <- new (BSentence t k (Some tr) s) ;;
  ret (with_store st m, At x).

(* Lines 171-201 (question) and 254-285 (quest) *)
Definition pquery (k : punctuation) : pmethod := fun st a =>
  l <- all_pargs a ;;
  p <- parg l 0 ;;
  t <- get p ;;
  r <- ploop_query (store st) (skipn 1 l) None ;;
  let '(m, s) := r in
  q <- pfinish_stamp m s ;;
  let '(m, s) := q in
  x <- new (BSentence t k None s) ;;
  ret (with_store st m, At x).

(* Lines 342-413 and 633-716 *)
Definition pconstant (p : pointer) : pmethod := fun st _ => ret (st, p).

(* Lines 414-420, 441-454 and 523-528 *)
Definition ppass : pmethod := fun st a =>
  l <- all_pargs a ;; p <- parg l 0 ;; ret (st, p).

(* ret = new std::tuple(0, new (signed int)(n)), lines 769, 776, 782 and 789 *)
Definition new_time (n : Z) : M pointer :=
  i <- new (BInt n) ;; x <- new (BTimed i) ;; ret (At x).

(* Lines 773-791 *)
Definition ptense (n : Z) : pmethod := fun st _ => p <- new_time n ;; ret (st, p).

(* Lines 765-772 *)
Definition ptime : pmethod := fun st a =>
  l <- all_pargs a ;;
  p <- parg l 0 ;;
  b <- read TDouble p ;;
  match b with
  | BDouble x =>
      n <- lift (truncated x) ;;
      q <- new_time n ;;
      delete TDouble p ;;;
      ret (st, q)
  | _ => lift UB
  end.

(* Lines 476-484 *)
Definition pinterval : pmethod := fun st a =>
  l <- all_pargs a ;;
  p <- parg l 0 ;;
  b <- read TDouble p ;;
  match b with
  | BDouble x =>
      n <- lift (truncated x) ;;
      t <- new (BTerm (Itv n)) ;;
      delete TDouble p ;;;
      ret (st, At t)
  | _ => lift UB
  end.

(* The i-th number if there is one, lines 796-815 and 828-847 *)
Definition number_or (l : list pointer) (i : nat) (other : float64) : M float64 :=
  if Nat.ltb i (length l) then p <- parg l i ;; take_number p else ret other.

(* Lines 792-822 *)
Definition ptruth : pmethod := fun st a =>
  l <- all_pargs a ;;
  f <- number_or l 0 minus_one ;;
  c <- number_or l 1 minus_one ;;
  k <- number_or l 2 (to64 cfg_k) ;;
  t <- new (BTruth (Truth.Truth ieee (to32 f) (to32 c) (to32 k))) ;;
  x <- new (BValued t) ;;
  ret (st, At x).

(* Lines 823-854 *)
Definition pbudget : pmethod := fun st a =>
  l <- all_pargs a ;;
  p <- number_or l 0 minus_one ;;
  d <- number_or l 1 minus_one ;;
  q <- number_or l 2 minus_one ;;
  x <- new (BBudget (new_budget p d q)) ;;
  ret (st, At x).

(* Lines 855-868 *)
Definition pstring : pmethod := fun st a =>
  l <- all_pargs a ;; p <- parg l 0 ;; s <- token_at p ;;
  x <- new (BString s) ;; ret (st, At x).

(* Lines 869-910; when stod throws the memory for the double is given back. *)
Definition pnumber : pmethod := fun st a =>
  l <- all_pargs a ;; p <- parg l 0 ;; s <- token_at p ;;
  v <- lift (stod s) ;; x <- new (BDouble v) ;; ret (st, At x).

(* Lines 717-764: the word is deleted before the variable is made.  Which
   number the variable gets is told by make_variable. *)
Definition pvariable (k : vkind) : pmethod := fun st a =>
  l <- all_pargs a ;; p <- parg l 0 ;;
  s <- string_at p ;;
  delete TString p ;;;
  r <- lift (make_variable k st (Some [VString s])) ;;
  match r with
  | (st, VTerm t) => x <- new (BTerm t) ;; ret (st, At x)
  | _ => lift UB
  end.

Section Actions.
Variable ord : list (option connector * list term) -> list (option connector * list term).
Variable fresh : Interning.world -> Z.

(* Lines 421-440 and 455-475: the word is deleted after the symbol table has
   been asked.  The symbol table's part is told by make_atom and
   make_operation. *)
Definition pword (f : method) : pmethod := fun st a =>
  l <- all_pargs a ;; p <- parg l 0 ;;
  s <- string_at p ;;
  r <- lift (f st (Some [VString s])) ;;
  match r with
  | (st, VTerm t) =>
      delete TString p ;;;
      x <- new (BTerm t) ;; ret (st, At x)
  | _ => lift UB
  end.

Definition patom : pmethod := pword (make_atom fresh).
Definition poperation : pmethod := pword (make_operation fresh).

(* Lines 287-316; what the statement looks like is told by make_statement. *)
Definition pstatement : pmethod := fun st a =>
  l <- all_pargs a ;;
  p0 <- parg l 0 ;; s <- get p0 ;;
  p1 <- parg l 1 ;; c <- copula_at p1 ;;
  p2 <- parg l 2 ;; p <- get p2 ;;
  r <- lift (make_statement ord st (Some [VTerm s; VCopula c; VTerm p])) ;;
  match r with
  | (st, VTerm t) => x <- new (BTerm t) ;; ret (st, At x)
  | _ => lift UB
  end.

(* Lines 318-332: the arguments first, then the operator *)
Definition poperation1 (st : state) (l : list pointer) : M (state * pointer) :=
  ts <- get_all (skipn 1 l) ;;
  p <- parg l 0 ;; op <- get p ;;
  s <- lift (compound ord true Product ts) ;;
  x <- new (BTerm (Stmt Inheritance s op)) ;;
  ret (st, At x).

Definition pmake_operation1 : pmethod := fun st a => l <- all_pargs a ;; poperation1 st l.

(* Lines 333-341 *)
Definition pmake_operation2 : pmethod := fun st a =>
  l <- all_pargs a ;; p <- parg l 0 ;;
  r <- poperation st (Some [p]) ;;
  poperation1 (fst r) (snd r :: skipn 1 l).

(* Lines 485-500 (set) and 537-552 (multi_prefix) *)
Definition pprefix (st : state) (l : list pointer) : M (state * pointer) :=
  p <- parg l 0 ;; c <- connector_at p ;;
  ts <- get_all (skipn 1 l) ;;
  t <- lift (compound ord true c ts) ;;
  x <- new (BTerm t) ;; ret (st, At x).

Definition pmake_prefix : pmethod := fun st a => l <- all_pargs a ;; pprefix st l.

(* Lines 529-536 and 573-632 *)
Definition pinfix (c : connector) : pmethod := fun st a =>
  l <- all_pargs a ;; pprefix st (ConnectorAt c :: l).

(* Lines 501-509 *)
Definition pnegation : pmethod := fun st a =>
  l <- all_pargs a ;;
  p <- parg l 0 ;; c <- connector_at p ;;
  q <- parg l 1 ;; t <- get q ;;
  t <- lift (compound ord true c [t]) ;;
  x <- new (BTerm t) ;; ret (st, At x).

(* Lines 553-572 *)
Definition psingle (con first : nat) : pmethod := fun st a =>
  l <- all_pargs a ;;
  p <- parg l con ;; c <- connector_at p ;;
  q <- parg l first ;; t1 <- get q ;;
  r <- parg l 2 ;; t2 <- get r ;;
  t <- lift (compound ord true c [t1; t2]) ;;
  x <- new (BTerm t) ;; ret (st, At x).

(* Lines 914-988 *)
Definition pmethods : list (string * pmethod) :=
  [("task", ptask);
   ("judgement", pbelief Judgement cfg_c_judgement);
   ("question", pquery Question);
   ("goal", pbelief Goal cfg_c_goal);
   ("quest", pquery Quest);
   ("statement", pstatement);
   ("statement_operation1", pmake_operation1);
   ("statement_operation2", pmake_operation2);
   ("inheritance", pconstant (CopulaAt Inheritance));
   ("similarity", pconstant (CopulaAt Similarity));
   ("instance", pconstant (CopulaAt Instance));
   ("property", pconstant (CopulaAt Property));
   ("instance_property", pconstant (CopulaAt InstanceProperty));
   ("implication", pconstant (CopulaAt Implication));
   ("predictive_implication", pconstant (CopulaAt PredictiveImplication));
   ("concurrent_implication", pconstant (CopulaAt ConcurrentImplication));
   ("retrospective_implication", pconstant (CopulaAt RetrospectiveImplication));
   ("equivalence", pconstant (CopulaAt Equivalence));
   ("predictive_equivalence", pconstant (CopulaAt PredictiveEquivalence));
   ("concurrent_equivalence", pconstant (CopulaAt ConcurrentEquivalence));
   ("variable_term", ppass);
   ("atom_term", patom);
   ("compound_term", ppass);
   ("statement_term", ppass);
   ("operation", poperation);
   ("interval", pinterval);
   ("set", pmake_prefix);
   ("negation", pnegation);
   ("int_image", pmake_prefix);
   ("ext_image", pmake_prefix);
   ("multi_infix", ppass);
   ("multi_prefix_product", pinfix Product);
   ("multi_prefix", pmake_prefix);
   ("single_prefix", psingle 0 1);
   ("single_infix", psingle 1 0);
   ("multi_prod_expr", pinfix Product);
   ("multi_disj_expr", pinfix Disjunction);
   ("multi_conj_expr", pinfix Conjunction);
   ("multi_sequential_expr", pinfix SequentialEvents);
   ("multi_parallel_expr", pinfix ParallelEvents);
   ("multi_intint_expr", pinfix IntensionalIntersection);
   ("multi_extint_expr", pinfix ExtensionalIntersection);
   ("con_conjunction", pconstant (ConnectorAt Conjunction));
   ("con_disjunction", pconstant (ConnectorAt Disjunction));
   ("con_parallel_events", pconstant (ConnectorAt ParallelEvents));
   ("con_sequential_events", pconstant (ConnectorAt SequentialEvents));
   ("con_product", pconstant (ConnectorAt Product));
   ("con_intensional_intersection", pconstant (ConnectorAt IntensionalIntersection));
   ("con_extensional_intersection", pconstant (ConnectorAt ExtensionalIntersection));
   ("con_extensional_difference", pconstant (ConnectorAt ExtensionalDifference));
   ("con_intensional_difference", pconstant (ConnectorAt IntensionalDifference));
   ("con_int_set", pconstant (ConnectorAt IntensionalSet));
   ("con_ext_set", pconstant (ConnectorAt ExtensionalSet));
   ("con_negation", pconstant (ConnectorAt Negation));
   ("con_int_image", pconstant (ConnectorAt IntensionalImage));
   ("con_ext_image", pconstant (ConnectorAt ExtensionalImage));
   ("independent_var", pvariable Independent);
   ("dependent_var", pvariable Dependent);
   ("query_var", pvariable Query);
   ("tense_time", ptime);
   ("tense_future", ptense (Evidence.marked_time cfg_temporal_duration Evidence.MFuture));
   ("tense_present", ptense (Evidence.marked_time cfg_temporal_duration Evidence.MPresent));
   ("tense_past", ptense (Evidence.marked_time cfg_temporal_duration Evidence.MPast));
   ("truth", ptruth);
   ("budget", pbudget);
   ("string_raw", pstring);
   ("string", pstring);
   ("quality", pnumber);
   ("durability", pnumber);
   ("priority", pnumber);
   ("k_evidence", pnumber);
   ("confidence", pnumber);
   ("frequency", pnumber);
   ("integer", pnumber)]%string.

(* Parser.cpp lines 79 and 84-101 *)
Definition pcall (name : string) (st : state) (a : parguments) : M (state * pointer) :=
  match lookup String.eqb name pmethods with
  | Some f => f st a
  | None => ret (st, Null)
  end.

(* rets.push_back(p), Parser.cpp line 105 *)
Definition push_back (v : Z) (p : pointer) : M unit :=
  x <- read TArgs (At v) ;;
  match x with BArgs l => write (At v) (BArgs (l ++ [p])) | _ => lift UB end.

(* The elements of a vector *)
Definition elements (v : Z) : M (list pointer) :=
  x <- read TArgs (At v) ;;
  match x with BArgs l => ret l | _ => lift UB end.

(* Parser.cpp lines 66-110: one node (lines 79-104), [ptransform_all] for a
   chain of siblings with its vector v. *)
Fixpoint ptransform (st : state) (n : Parser.ast) {struct n} : M (state * pointer) :=
  match n with
  | Parser.Leaf emit token => pcall emit st (Some [Token token])
  | Parser.Node emit children =>
      match children with
      | [] => pcall emit st None
      | _ =>
          v <- new (BArgs []) ;;
          st <- (fix go (st : state) (l : list Parser.ast) {struct l} : M state :=
                   match l with
                   | [] => ret st
                   | n :: l' =>
                       r <- ptransform st n ;;
                       push_back v (snd r) ;;;
                       go (fst r) l'
                   end) st children ;;
          l <- elements v ;;
          r <- pcall emit st (Some l) ;;
          delete TArgs (At v) ;;;
          ret r
      end
  end.

Definition ptransform_all (v : Z) : state -> list Parser.ast -> M state :=
  fix go (st : state) (l : list Parser.ast) {struct l} : M state :=
    match l with
    | [] => ret st
    | n :: l' =>
        r <- ptransform st n ;;
        push_back v (snd r) ;;;
        go (fst r) l'
    end.

(* Parser.cpp lines 37-46, from a (non-empty) tree to the pointer that
   parse_string returns, the first element. *)
Definition evaluate (st : state) (trees : list Parser.ast) : M (state * pointer) :=
  v <- new (BArgs []) ;;
  st <- ptransform_all v st trees ;;
  l <- elements v ;;
  p <- parg l 0 ;;
  delete TArgs (At v) ;;;
  ret (st, p).

End Actions.

(* Parser.cpp lines 37-46 with NarseseParser.h lines 16-23, the counterpart of
   finish in Actions.v: an exception leaves the memory as it then is. *)
Definition pfinish ord fresh (st : state) (o : Parser.outcome) : M (state * pointer * bool) := fun h =>
  let st := with_vars st [] [] [] in
  let tree := match o with Parser.Accepted l => l | Parser.Rejected => pending st end in
  match tree with
  | [] => (h, Ok (st, Null, false))
  | _ =>
      match evaluate ord fresh st tree h with
      | (h', Ok (st, p)) => (h', Ok (with_pending st [], p, false))
      | (h', Throw) => (h', Ok (with_pending st tree, Null, true))
      | (h', UB) => (h', UB)
      | (h', OutOfFuel) => (h', OutOfFuel)
      end
  end.

(* The end of the last pTask to a task (Task.h lines 19-31, Sentence.h lines
   120-139): the members of a Task are released in reverse order, the sentence
   through a shared_ptr<Sentence> (NarseseParser.cpp line 115).  A task that
   was not made (null) needs nothing. *)
Definition release (p : pointer) : M unit :=
  match p with
  | Null => ret tt
  | _ =>
      x <- read TTask p ;;
      match x with
      | BTask b s =>
          y <- read TSentence (At s) ;;
          match y with
          | BSentence _ _ tr m =>
              delete TStamp (At m) ;;;
              (match tr with Some a => delete TTruth (At a) | None => ret tt end) ;;;
              delete TSentence (At s) ;;;
              delete TBudget (At b) ;;;
              delete TTask p
          | _ => lift UB
          end
      | _ => lift UB
      end
  end.

End Types.
