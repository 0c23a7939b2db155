(* Written Narsese: the forms a term can be written in, how they are spelled
   and what they mean.  Written from narsese.par and the usual reading of the
   symbols, without reference to the parser or the semantic actions. *)
From Coq Require Import ZArith String Ascii List Bool Reals.
From Flocq Require Import Core.
From Verif Require Import Base Enums Term Maps Compound NumeralSpec Grammar Actions ActionsSpec PrinterSpec.
From Verif Require Interning InterningSpec Evidence Parser ParserSpec.
Import ListNotations.
Open Scope string_scope.
Open Scope list_scope.
Local Open Scope Z_scope.

(** * Forms *)

Inductive form : Type :=
  | Word (s : string)                                      (* bird, (quote)a bird(quote) *)
  | Placeholder (k : vkind) (s : string)                      (* $x, #x, ?x *)
  | Operator (s : string)                                  (* ^go *)
  | Interval (s : string)                                  (* +5 *)
  | Relation (angular : bool) (c : copula) (a b : form)    (* <a --> b>, (a --> b) *)
  | Invocation (s : string) (l : list form)                (* (^go, a, b) *)
  | Application (s : string) (l : list form)               (* go(a, b) *)
  | Braces (c : connector) (l : list form)                 (* {a, b}, [a, b] *)
  | Negated (f : form)                                     (* -- a *)
  | Prefixed (c : connector) (l : list form)               (* (&&, a, b), (--, a), (-, a, b) *)
  | Tuple (l : list form)                                  (* (a, b) *)
  | Joined (c : connector) (l : list form)                 (* (a && b), (a - b) *)
  | Bare (c : connector) (l : list form).                  (* a && b, as part of a difference *)

(* Words: plain, or quoted without quotes or backslashes inside. *)
Definition quotable (c : ascii) : Prop :=
  (32 <= nat_of_ascii c <= 126)%nat /\ c <> """"%char /\ c <> "\"%char.

Definition in_quotes (s : string) : Prop :=
  exists w, s = ("""" ++ w ++ """")%string /\ Forall quotable (list_ascii_of_string w).

Definition word (s : string) : Prop := plain s \/ in_quotes s.

(* Connectors by the ways they can be written. *)
Definition listing (c : connector) : Prop :=
  In c [Conjunction; Disjunction; ParallelEvents; SequentialEvents; IntensionalIntersection; ExtensionalIntersection].
Definition infix (c : connector) : Prop := listing c \/ c = Product.
Definition difference (c : connector) : Prop := c = ExtensionalDifference \/ c = IntensionalDifference.
Definition image (c : connector) : Prop := c = ExtensionalImage \/ c = IntensionalImage.
Definition set_connector (c : connector) : Prop := c = ExtensionalSet \/ c = IntensionalSet.

Definition operator (f : form) : Prop := exists s, f = Operator s.

(* Forms that can stand for a term. *)
Inductive proper : form -> Prop :=
  | F_word s : word s -> proper (Word s)
  | F_variable k s : word s -> proper (Placeholder k s)
  | F_operator s : word s -> proper (Operator s)
  | F_interval s n : whole (list_ascii_of_string s) n -> -2147483648 <= n <= 2147483647 -> proper (Interval s)
  | F_relation angular c a b : proper a -> proper b -> proper (Relation angular c a b)
  | F_invocation s l : word s -> Forall proper l -> proper (Invocation s l)
  | F_application s l : word s -> l <> [] -> Forall proper l -> proper (Application s l)
  | F_braces c l : set_connector c -> l <> [] -> Forall proper l -> proper (Braces c l)
  | F_negated f : proper f -> proper (Negated f)
  | F_negation f : proper f -> proper (Prefixed Negation [f])
  | F_listing c l : listing c -> (2 <= length l)%nat -> Forall proper l -> proper (Prefixed c l)
  | F_product c l : c = Product \/ image c -> l <> [] -> Forall proper l -> proper (Prefixed c l)
  | F_difference c a b : difference c -> operand a -> operand b -> proper (Prefixed c [a; b])
  (* (^go, a) is an invocation *)
  | F_tuple f l : ~ operator f -> l <> [] -> Forall proper (f :: l) -> proper (Tuple (f :: l))
  | F_infix c l : infix c -> (2 <= length l)%nat -> Forall proper l -> proper (Joined c l)
  | F_between c a b : difference c -> operand a -> operand b -> proper (Joined c [a; b])
with operand : form -> Prop :=
  | F_plain f : proper f -> operand f
  | F_bare c l : infix c -> (2 <= length l)%nat -> Forall proper l -> operand (Bare c l).

(** * Spelling *)

Definition sign (c : connector) : string :=
  match c with
  | Conjunction => "&&" | Disjunction => "||" | Product => "*"
  | ParallelEvents => "&|" | SequentialEvents => "&/"
  | IntensionalIntersection => "|" | ExtensionalIntersection => "&"
  | ExtensionalDifference => "-" | IntensionalDifference => "~" | Negation => "--"
  | IntensionalSet => "[" | ExtensionalSet => "{"
  | IntensionalImage => "\" | ExtensionalImage => "/" | CList => "#"
  end.

Definition closing (c : connector) : string := match c with IntensionalSet => "]" | _ => "}" end.

Definition copula_sign (c : copula) : string :=
  match c with
  | Inheritance => "-->" | Similarity => "<->" | Instance => "{--" | Property => "--]"
  | InstanceProperty => "{-]" | Implication => "==>" | PredictiveImplication => "=/>"
  | ConcurrentImplication => "=|>" | RetrospectiveImplication => "=\>" | Equivalence => "<=>"
  | PredictiveEquivalence => "</>" | ConcurrentEquivalence => "<|>"
  end.

Definition variable_sign (k : vkind) : string :=
  match k with Independent => "$" | Dependent => "#" | Query => "?" end.

(* The parts of a list with something between them. *)
Fixpoint interspersed (between : string) (l : list (list string)) : list string :=
  match l with
  | [] => []
  | [x] => x
  | x :: l' => x ++ between :: interspersed between l'
  end.

(* The lexemes of a form, from left to right. *)
Fixpoint spelling (f : form) : list string :=
  let commas l := interspersed "," (map spelling l) in
  match f with
  | Word s => [s]
  | Placeholder k s => [variable_sign k; s]
  | Operator s => ["^"; s]
  | Interval s => ["+"; s]
  | Relation true c a b => "<" :: spelling a ++ copula_sign c :: spelling b ++ [">"]
  | Relation false c a b => "(" :: spelling a ++ copula_sign c :: spelling b ++ [")"]
  | Invocation s l => "(" :: interspersed "," (["^"; s] :: map spelling l) ++ [")"]
  | Application s l => s :: "(" :: commas l ++ [")"]
  | Braces c l => sign c :: commas l ++ [closing c]
  | Negated f => "--" :: spelling f
  | Prefixed c l => "(" :: sign c :: "," :: commas l ++ [")"]
  | Tuple l => "(" :: commas l ++ [")"]
  | Joined c l => "(" :: interspersed (sign c) (map spelling l) ++ [")"]
  | Bare c l => interspersed (sign c) (map spelling l)
  end.

(** * Names *)

(* The names of the variables of a kind, from left to right. *)
Fixpoint variables (k : vkind) (f : form) : list string :=
  let all l := concat (map (variables k) l) in
  match f with
  | Placeholder k' s => if vk_eqb k' k then [s] else []
  | Word _ | Operator _ | Interval _ => []
  | Relation _ _ a b => variables k a ++ variables k b
  | Negated f => variables k f
  | Invocation _ l | Application _ l | Braces _ l | Prefixed _ l | Tuple l | Joined _ l | Bare _ l => all l
  end.

(* The words that name atoms, and those that name operators. *)
Fixpoint words (f : form) : list string :=
  let all l := concat (map words l) in
  match f with
  | Word s => [s]
  | Placeholder _ _ | Operator _ | Interval _ => []
  | Relation _ _ a b => words a ++ words b
  | Negated f => words f
  | Invocation _ l | Application _ l | Braces _ l | Prefixed _ l | Tuple l | Joined _ l | Bare _ l => all l
  end.

Fixpoint operators (f : form) : list string :=
  let all l := concat (map operators l) in
  match f with
  | Operator s => [s]
  | Word _ | Placeholder _ _ | Interval _ => []
  | Relation _ _ a b => operators a ++ operators b
  | Negated f => operators f
  | Invocation s l | Application s l => s :: all l
  | Braces _ l | Prefixed _ l | Tuple l | Joined _ l | Bare _ l => all l
  end.

(** * Meaning *)

(* The connector and the components of forms for compounds. *)
Definition assembly (f : form) : option (connector * list form) :=
  match f with
  | Braces c l | Prefixed c l | Joined c l | Bare c l => Some (c, l)
  | Negated f => Some (Negation, [f])
  | Tuple l => Some (Product, l)
  | _ => None
  end.

Section Meaning.
Variable ord : list (option connector * list term) -> list (option connector * list term).
(* The atoms that go by a name, and the numbers of variables. *)
Variable atom : string -> Z -> Prop.
Variable numbered : vkind -> string -> Z -> Prop.

(* {-- makes the subject a set, --] the predicate, {-] both; building a set of
   one component may dissolve the component, see Compound.v. *)
Inductive related : copula -> term -> term -> term -> Prop :=
  | L_plain c s p : ~ wraps_subject c -> ~ wraps_predicate c -> related c s p (Stmt c s p)
  | L_instance s p s' : compound ord false ExtensionalSet [s] = Ok s' ->
      related Instance s p (Stmt Inheritance s' p)
  | L_property s p p' : compound ord false IntensionalSet [p] = Ok p' ->
      related Property s p (Stmt Inheritance s p')
  | L_both s p s' p' : compound ord false ExtensionalSet [s] = Ok s' -> compound ord false IntensionalSet [p] = Ok p' ->
      related InstanceProperty s p (Stmt Inheritance s' p').

Inductive means : form -> term -> Prop :=
  | M_word s a : atom s a -> means (Word s) (Atom false a)
  | M_variable k s i : numbered k s i -> means (Placeholder k s) (Var k i)
  | M_operator s a : atom ("^" ++ s)%string a -> means (Operator s) (Atom true a)
  | M_interval s n : whole (list_ascii_of_string s) n -> means (Interval s) (Itv n)
  | M_relation angular c a b s p t : means a s -> means b p -> related c s p t -> means (Relation angular c a b) t
  | M_invocation s a l ts : atom ("^" ++ s)%string a -> all_mean l ts ->
      means (Invocation s l) (Stmt Inheritance (Comp Product ts) (Atom true a))
  | M_application s a l ts : atom ("^" ++ s)%string a -> all_mean l ts ->
      means (Application s l) (Stmt Inheritance (Comp Product ts) (Atom true a))
  | M_compound f c l ts t : assembly f = Some (c, l) -> all_mean l ts -> compound ord true c ts = Ok t -> means f t
with all_mean : list form -> list term -> Prop :=
  | M_none : all_mean [] []
  | M_more f l t ts : means f t -> all_mean l ts -> all_mean (f :: l) (t :: ts).

(* g is f or a part of it. *)
Inductive inside (g : form) : form -> Prop :=
  | I_self : inside g g
  | I_left x c a b : inside g a -> inside g (Relation x c a b)
  | I_right x c a b : inside g b -> inside g (Relation x c a b)
  | I_argument1 s l f : In f l -> inside g f -> inside g (Invocation s l)
  | I_argument2 s l f : In f l -> inside g f -> inside g (Application s l)
  | I_component f' c l f : assembly f' = Some (c, l) -> In f l -> inside g f -> inside g f'.

(* Some compound in f cannot be built: building it is undefined (see C76). *)
Inductive stuck (f : form) : Prop :=
  | S_compound g c l ts : inside g f -> assembly g = Some (c, l) -> all_mean l ts ->
      compound ord true c ts = UB -> stuck f
  | S_subject x c a b s : inside (Relation x c a b) f -> wraps_subject c -> means a s ->
      compound ord false ExtensionalSet [s] = UB -> stuck f
  | S_predicate x c a b p : inside (Relation x c a b) f -> wraps_predicate c -> means b p ->
      compound ord false IntensionalSet [p] = UB -> stuck f.
End Meaning.

(* Variables are numbered in the order of their first occurrence in f. *)
Definition by_occurrence (f : form) (k : vkind) (s : string) (i : Z) : Prop :=
  exists j, i = Z.of_nat j /\ nth_error (firsts (variables k f)) j = Some s.

(* The atoms handed out for a name. *)
Definition handed_out (w : Interning.world) (s : string) (a : Z) : Prop := In (Interning.Hd a s) (Interning.handles w).

(** * The symbol table *)

(* Names of operators start with ^, other names do not. *)
Definition operator_name (n : string) : Prop := exists s, n = ("^" ++ s)%string.

(* The symbol table is in order: every name of an atom leads to an atom that is
   no operation and back; every atom handed out is the one its name leads to;
   what was handed out for operator names is an operation; pointers are not
   null and lie below the next free one. *)
Record in_order (w : Interning.world) (ops : list Z) : Prop := InOrder {
  order_names : forall n k, ~ operator_name n -> lookup String.eqb n (Interning.inv (Interning.tab w)) = Some k ->
    exists p a, lookup Z.eqb k (Interning.objs (Interning.tab w)) = Some p /\
      lookup Z.eqb p (Interning.held w) = Some a /\ Interning.key_of a = k /\
      lookup Z.eqb k (Interning.dict (Interning.tab w)) = Some n /\ ~ In a ops;
  order_handles : forall n a, ~ operator_name n -> handed_out w n a ->
    lookup String.eqb n (Interning.inv (Interning.tab w)) = Some (Interning.key_of a) /\
    exists p, lookup Z.eqb (Interning.key_of a) (Interning.objs (Interning.tab w)) = Some p /\
      lookup Z.eqb p (Interning.held w) = Some a;
  order_operators : forall n a, operator_name n -> handed_out w n a -> In a ops;
  order_pointers : forall p a, lookup Z.eqb p (Interning.held w) = Some a -> 0 < p < Interning.next w;
  order_next : 0 < Interning.next w
}.

(* How many pTerms there are. *)
Definition population (w : Interning.world) : Z :=
  Z.of_nat (length (Interning.held w) + length (Interning.handles w)).

(* The allocator places a new atom apart from the living ones, modulo 2^32, as
   long as it can. *)
Definition careful (fresh : Interning.world -> Z) : Prop :=
  forall w, population w < 4294967295 -> InterningSpec.apart w (fresh w).

(** * Tasks *)

Inductive tense_form := Timed (s : string) | Past | Present | Future.

(* Truth values and budgets are lists of one to three numerals. *)
Record task_form := Written {
  budget_part : list string;
  body : form;
  mark : punctuation;
  tense_part : option tense_form;
  truth_part : list string
}.

(* Numerals that a double can hold without underflow. *)
Definition held_numeral (r : re) (s : string) : Prop :=
  matches r (list_ascii_of_string s) /\
  exists v, reads (list_ascii_of_string s) v /\ (v = 0 \/ bpow radix2 (-1022) <= v < bpow radix2 1023)%R.

(* At most three numerals, each of its own kind. *)
Fixpoint numerals (kinds : list re) (l : list string) : Prop :=
  match kinds, l with
  | _, [] => True
  | r :: kinds', s :: l' => held_numeral r s /\ numerals kinds' l'
  | [], _ :: _ => False
  end.

Definition proper_tense (t : tense_form) : Prop :=
  match t with
  | Timed s => exists n, whole (list_ascii_of_string s) n /\ -2147483648 <= n <= 2147483647
  | _ => True
  end.

Record proper_task (x : task_form) : Prop := {
  task_budget : numerals [unit_number; open_number; unit_number] (budget_part x);
  task_body : proper (body x);
  task_subject : forall k s, body x <> Placeholder k s;
  task_tense : forall t, tense_part x = Some t -> proper_tense t;
  task_truth : numerals [unit_number; open_number; natural] (truth_part x);
  task_mark : truth_part x <> [] -> mark x = Judgement \/ mark x = Goal
}.

Definition spell_values (quote : string) (l : list string) : list string :=
  match l with
  | [] => []
  | _ => quote :: interspersed ";" (map (fun s => [s]) l) ++ [quote]
  end.

Definition spell_tense (t : option tense_form) : list string :=
  match t with
  | None => []
  | Some (Timed s) => [":!"; s; ":"]
  | Some Past => [":\:"]
  | Some Present => [":|:"]
  | Some Future => [":/:"]
  end.

Definition mark_sign (p : punctuation) : string :=
  match p with Judgement => "." | Question => "?" | Goal => "!" | Quest => "@" end.

Definition spell_task (x : task_form) : list string :=
  spell_values "$" (budget_part x) ++ spelling (body x) ++ mark_sign (mark x) ::
  spell_tense (tense_part x) ++ spell_values "%" (truth_part x).

(* When the event is: a number is taken as it is, the other tenses are five
   units of time (Config.cpp line 56) around the present. *)
Definition occurs (t : tense_form) (n : Z) : Prop :=
  match t with
  | Timed s => whole (list_ascii_of_string s) n
  | Past => n = -5
  | Present => n = 0
  | Future => n = 5
  end.

(* The stamp: eternal without tense. *)
Definition stamped (now : Z) (t : option tense_form) (s : Evidence.stamp) : Prop :=
  Evidence.t_creation s = now /\
  match t with
  | None => Evidence.is_eternal s = true
  | Some t => Evidence.is_eternal s = false /\ occurs t (Evidence.t_occurrence s)
  end.

(* The truth value: what is written, the default for what is not. *)
Definition valued (p : punctuation) (l : list string) (t : option (Truth.truth Float.ieee)) : Prop :=
  match p with
  | Judgement | Goal =>
      exists v, t = Some v /\
        kept (nth_error l 0) (literal 1 1) (Truth.fr Float.ieee v) /\
        kept (nth_error l 1) (literal 9 10) (Truth.co Float.ieee v) /\
        kept (nth_error l 2) (literal 1 1) (Truth.kk Float.ieee v)
  | Question | Quest => t = None
  end.

(* The budget: 0.8, 0.8, 0.5 when nothing is written, otherwise what is written
   and defaults by punctuation and truth value. *)
Definition budgeted (l : list string) (tk : task) : Prop :=
  match l with
  | [] => budget_of tk = Budget (Float.to64 (literal 8 10)) (Float.to64 (literal 8 10)) (literal 5 10)
  | p :: _ => exists fp fd,
      priority (budget_of tk) = Float.to64 fp /\ keeps p fp /\
      durability (budget_of tk) = Float.to64 fd /\
        kept (nth_error l 1) (default_durability (punct (sentence_of tk))) fd /\
      kept (nth_error l 2) (default_quality (sentence_of tk)) (quality (budget_of tk))
  end.

(* Lexemes with spaces before them and after each of them. *)
Definition spread (lead : nat) (ws : list string) (pads : list nat) : string :=
  string_of_list_ascii (ParserSpec.spaces lead ++ ParserSpec.padded (map list_ascii_of_string ws) pads).

Definition text_for (x : task_form * nat * list nat) : string :=
  let '(x, lead, pads) := x in spread lead (spell_task x) pads.

Definition task_in (x : task_form * nat * list nat) : task_form := fst (fst x).

Definition proper_text (x : task_form * nat * list nat) : Prop :=
  proper_task (task_in x) /\ length (snd x) = length (spell_task (task_in x)).

(** * Reading *)

(* tk is what x says; [now] is the time of reading. *)
Record says ord (w : Interning.world) (now : Z) (x : task_form) (tk : task) : Prop := Says {
  says_content : means ord (handed_out w) (by_occurrence (body x)) (body x) (content (sentence_of tk));
  says_mark : punct (sentence_of tk) = mark x;
  says_stamp : stamped now (tense_part x) (stamp_of (sentence_of tk));
  says_truth : valued (mark x) (truth_part x) (truth_of (sentence_of tk));
  says_budget : budgeted (budget_part x) tk
}.

(* The stack of the parser is large enough for the text: it is not bounded, or
   it is the one of the code and the text is short (see C60). *)
Definition has_room (room : option nat) (text : string) : Prop :=
  room = ParserSpec.unlimited \/ room = Parser.allocated /\ (String.length text <= 123)%nat.

(* How often a form mentions an atom. *)
Definition mentions (f : form) : nat := (length (words f) + length (operators f))%nat.

(* One parser reads texts one after another: what it returns for each of them,
   and whether it threw an exception. *)
Fixpoint readings ord fresh (room : option nat) (st : state) (left : list ascii) (inputs : list string)
  : res (state * list ascii * list (option value * bool)) :=
  match inputs with
  | [] => Ok (st, left, [])
  | s :: inputs' =>
      bind (parse_task ord fresh room st left s) (fun '(st, left, v, thrown) =>
      bind (readings ord fresh room st left inputs') (fun '(st, left, vs) =>
      Ok (st, left, (v, thrown) :: vs)))
  end.
