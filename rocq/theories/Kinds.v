(* Sentences as objects in C++ (Sentence.h lines 108-180): the classes Sentence,
   Judgement, Question, Goal and Quest, their copies and their end, and the
   reference member [desire] of a Goal.

   The n-th sentence made is at address n and addresses are not used again; a
   pointer to a Truth or to a Stamp is a number.  Truths that are not held any
   more are not given back here (Storage.v has the end of a task). *)
From Coq Require Import ZArith List Bool.
From Verif Require Import Base Float Truth Maps Term.
From Verif Require Evidence Actions.
Import ListNotations.
Local Open Scope nat_scope.

(* Config.h lines 17-21, as they are when a sentence is made: f, c_judgement,
   c_goal and k; all are variables that a program may write to *)
Record config := Config { c_f : float32; c_judgement : float32; c_goal : float32; c_k : float32 }.

(* Sentence.h lines 123-126, and line 168 for a Goal: the sentence to whose
   member truth desire refers.  The member is declared with the initializer
   Sentence::truth, which the constructor of line 169 uses. *)
Record sentence := Sentence {
  s_term : term;
  s_truth : option nat;
  s_stamp : option nat;
  s_punct : Actions.punctuation;
  s_desire : option nat
}.

(* The sentences that are alive, how many were made, the objects of type Truth
   and Stamp by address, and the globals *)
Record world := World {
  count : nat;
  alive : list (nat * sentence);
  truths : list (truth ieee);
  stamps : list Evidence.stamp;
  memory : Evidence.store
}.

(* new Truth(f, c, k), Sentence.h lines 155 and 172 *)
Definition new_truth (w : world) (v : truth ieee) : world * nat :=
  (World (count w) (alive w) (truths w ++ [v]) (stamps w) (memory w), length (truths w)).

(* new Stamp(true), Sentence.h line 130 *)
Definition new_stamp (w : world) : world * nat :=
  let '(m, s) := Evidence.stamp_bool (memory w) true in
  (World (count w) (alive w) (truths w) (stamps w ++ [s]) m, length (stamps w)).

(* Sentence.h lines 127-131: the members of a Sentence *)
Definition base (w : world) (t : term) (p : Actions.punctuation) (tr st : option nat)
  : world * sentence :=
  match st with
  | Some _ => (w, Sentence t tr st p None)
  | None => let '(w, a) := new_stamp w in (w, Sentence t tr (Some a) p None)
  end.

(* Sentence.h lines 152-156 and 169-173: a truth value unless there is one *)
Definition with_truth (w : world) (s : sentence) (v : truth ieee) : world * sentence :=
  match s_truth s with
  | Some _ => (w, s)
  | None =>
      let '(w, a) := new_truth w v in
      (w, Sentence (s_term s) (Some a) (s_stamp s) (s_punct s) (s_desire s))
  end.

(* The object gets the next address (new, e.g. Sentence.h line 145). *)
Definition place (ws : world * sentence) : world :=
  let '(w, s) := ws in
  World (S (count w)) ((count w, s) :: alive w) (truths w) (stamps w) (memory w).

(* Writing the members of a sentence that is alive (Sentence.h lines 123-126) *)
Definition put (w : world) (a : nat) (s : sentence) : world :=
  World (count w) (set Nat.eqb a s (alive w)) (truths w) (stamps w) (memory w).

(* Access to a sentence; undefined if it is gone (Sentence.h lines 120-139) *)
Definition look (w : world) (a : nat) : res sentence :=
  match lookup Nat.eqb a (alive w) with Some s => Ok s | None => UB end.

(* x.truth, Sentence.h line 124 *)
Definition read_truth (w : world) (a : nat) : res (option nat) :=
  bind (look w a) (fun s => Ok (s_truth s)).

(* x.desire for a Goal x, Sentence.h line 168: the member truth of the sentence it refers to.  Other
   sentences do not have it. *)
Definition read_desire (w : world) (a : nat) : res (option nat) :=
  bind (look w a) (fun s =>
  match s_desire s with Some r => read_truth w r | None => UB end).

(* What a program can do with sentences: the constructors of Sentence.h lines
   127, 152, 162, 169 and 179, and what C++ adds to the classes *)
Inductive op :=
  | NewSentence (t : term) (p : Actions.punctuation) (tr st : option nat)
  | NewJudgement (t : term) (tr st : option nat)
  | NewQuestion (t : term) (st : option nat)
  | NewGoal (t : term) (tr st : option nat)
  | NewQuest (t : term) (st : option nat)
  (* a copy as the class of the object itself, e.g. Goal(g) *)
  | Copy (a : nat)
  (* the same with std::move(g) *)
  | Move (a : nat)
  (* a copy of the part Sentence, Sentence(g) *)
  | Slice (a : nat)
  (* assignment of the part Sentence; a Goal as such cannot be assigned *)
  | Assign (a b : nat)
  (* a.truth = p and a.desire = p *)
  | SetTruth (a : nat) (p : option nat)
  | SetDesire (a : nat) (p : option nat)
  | Delete (a : nat).

(* Assignment to the member of Sentence.h line 124 *)
Definition set_truth (s : sentence) (p : option nat) : sentence :=
  Sentence (s_term s) p (s_stamp s) (s_punct s) (s_desire s).

(* One step (Sentence.h lines 120-180).  Copying and moving are the implicit constructors: they bind a
   reference to what the other's is bound to.  Moving empties truth and stamp
   (shared_ptr); pTerm has a destructor of its own (Term.h line 62) and is
   therefore copied. *)
Definition step (c : config) (w : world) (x : op) : res world :=
  match x with
  | NewSentence t p tr st => Ok (place (base w t p tr st))
  | NewJudgement t tr st =>
      let '(w, s) := base w t Actions.Judgement tr st in
      Ok (place (with_truth w s (Truth.Truth ieee (c_f c) (c_judgement c) (c_k c))))
  | NewQuestion t st => Ok (place (base w t Actions.Question None st))
  | NewGoal t tr st =>
      let '(w, s) := base w t Actions.Goal tr st in
      let s := Sentence (s_term s) (s_truth s) (s_stamp s) (s_punct s) (Some (count w)) in
      Ok (place (with_truth w s (Truth.Truth ieee (c_f c) (c_goal c) (c_k c))))
  | NewQuest t st => Ok (place (base w t Actions.Quest None st))
  | Copy a => bind (look w a) (fun s => Ok (place (w, s)))
  | Move a =>
      bind (look w a) (fun s =>
      Ok (place (put w a (Sentence (s_term s) None None (s_punct s) (s_desire s)), s)))
  | Slice a =>
      bind (look w a) (fun s =>
      Ok (place (w, Sentence (s_term s) (s_truth s) (s_stamp s) (s_punct s) None)))
  | Assign a b =>
      bind (look w a) (fun s =>
      bind (look w b) (fun t =>
      Ok (put w a (Sentence (s_term t) (s_truth t) (s_stamp t) (s_punct t) (s_desire s)))))
  | SetTruth a p => bind (look w a) (fun s => Ok (put w a (set_truth s p)))
  | SetDesire a p =>
      bind (look w a) (fun s =>
      match s_desire s with
      | Some r => bind (look w r) (fun t => Ok (put w r (set_truth t p)))
      | None => UB
      end)
  | Delete a =>
      bind (look w a) (fun _ =>
      Ok (World (count w) (unset Nat.eqb a (alive w)) (truths w) (stamps w) (memory w)))
  end.

(* A whole program with the classes of Sentence.h lines 120-180; the variables of Config may be others at every step. *)
Fixpoint run (w : world) (l : list (config * op)) : res world :=
  match l with
  | [] => Ok w
  | (c, x) :: l' => bind (step c w x) (fun w => run w l')
  end.

(* No sentences yet (the start of a program; Sentence.h has no objects of its own) *)
Definition start (m : Evidence.store) : world := World 0 [] [] [] m.
