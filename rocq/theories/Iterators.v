(* The iterators over the components of a compound (class Iterator of
   Narsese/include/Term.h lines 202-308): small objects on the stack that each
   own a standard iterator made with new.

   A block holds either an iterator of a std::set or one of a std::vector;
   reading it as the other is undefined behaviour (UB), as is everything the
   standard forbids: going outside of the container, reading its end,
   comparing iterators of different containers, using one whose container is
   gone.  The constructor for vectors keeps a const_iterator that is read as an
   iterator, and set<pTerm> is written for set<pTerm, compare>; the library
   lays both out alike and they are not told apart here.  Deleting a block as
   the other type is counted but goes on, the two being of the same size. *)
From Coq Require Import ZArith String List Bool.
From Verif Require Import Base Maps Term Printer.
Import ListNotations.
Open Scope string_scope.
Open Scope list_scope.
Open Scope Z_scope.

(* Class Terms, Term.h lines 326-333: _is_commutative, and the members in the
   order of the set or the vector *)
Record container := Container { commutative : bool; members : list term }.

(* The containers there are, by their addresses *)
Definition containers := list (Z * container).

(* A block: what the standard iterator is of (true for a set), of which
   container and how many steps behind its beginning *)
Record spot := Spot { of_set : bool; owner : Z; place : Z }.

(* The memory: the next address, the blocks there are, and how many have been
   deleted as what they are not *)
Record memory := Memory { top : Z; live : list (Z * spot); odd : nat }.

(* Term.h lines 306-307, the members of Iterator *)
Record iterator := It { is_commutative : bool; it_ : Z }.

(* A part of the program that works on the memory (no code of its own) *)
Definition M (A : Type) := memory -> memory * res A.
Definition ret {A} (a : A) : M A := fun h => (h, Ok a).
Definition lift {A} (r : res A) : M A := fun h => (h, r).
Definition mbind {A B} (m : M A) (f : A -> M B) : M B := fun h =>
  match m h with
  | (h, Ok a) => f a h
  | (h, UB) => (h, UB)
  | (h, Throw) => (h, Throw)
  | (h, OutOfFuel) => (h, OutOfFuel)
  end.
Notation "x <- m ;; k" := (mbind m (fun x => k)) (at level 61, m at next level, right associativity).
Notation "m ;;; k" := (mbind m (fun _ => k)) (at level 61, right associativity).

(* The end of a scope: c is done when m ends and also when it throws. *)
Definition leaving {A} (m : M A) (c : M unit) : M A := fun h =>
  match m h with
  | (h, Ok a) => (c ;;; ret a) h
  | (h, Throw) => (c ;;; lift Throw) h
  | r => r
  end.

(* new auto(it), Term.h lines 218-223 *)
Definition new (s : spot) : M Z := fun h =>
  (Memory (top h + 1) ((top h, s) :: live h) (odd h), Ok (top h)).

(* delete of a pointer cast to an iterator of a set (or of a vector), Term.h
   lines 230 and 232 *)
Definition delete (set : bool) (a : Z) : M unit := fun h =>
  match lookup Z.eqb a (live h) with
  | Some s => (Memory (top h) (unset Z.eqb a (live h))
                 (if Bool.eqb set (of_set s) then odd h else S (odd h)), Ok tt)
  | None => (h, UB)
  end.

(* Reading a pointer cast likewise, as in Term.h line 239 *)
Definition read (set : bool) (a : Z) : M spot := fun h =>
  match lookup Z.eqb a (live h) with
  | Some s => if Bool.eqb set (of_set s) then (h, Ok s) else (h, UB)
  | None => (h, UB)
  end.

(* Assigning to what was read before, Term.h lines 247 and 249 *)
Definition write (a : Z) (s : spot) : M unit := fun h =>
  (Memory (top h) (Maps.set Z.eqb a s (live h)) (odd h), Ok tt).

Section Operations.
Variable cs : containers.

(* std::advance and ++ on the standard iterators *)
Definition moved (s : spot) (n : Z) : res spot :=
  match lookup Z.eqb (owner s) cs with
  | None => UB
  | Some c =>
      if (0 <=? place s + n) && (place s + n <=? Z.of_nat (length (members c)))
      then Ok (Spot (of_set s) (owner s) (place s + n)) else UB
  end.

(* Term.h lines 455-461, begin, with the constructors of lines 222-223 *)
Definition begin_of (c : Z) : M iterator :=
  match lookup Z.eqb c cs with
  | None => lift UB
  | Some k => a <- new (Spot (commutative k) c 0) ;; ret (It (commutative k) a)
  end.

(* Term.h lines 463-469, end *)
Definition end_of (c : Z) : M iterator :=
  match lookup Z.eqb c cs with
  | None => lift UB
  | Some k => a <- new (Spot (commutative k) c (Z.of_nat (length (members k)))) ;; ret (It (commutative k) a)
  end.

(* Term.h lines 214-221, the copy constructor.  Line 216 copies the pointer,
   lines 218 and 220 replace it. *)
Definition copy (i : iterator) : M iterator :=
  s <- read (is_commutative i) (it_ i) ;; a <- new s ;; ret (It (is_commutative i) a).

(* The copy assignment is not written out in the class: both members are
   copied. *)
Definition assigned (i : iterator) : iterator := i.

(* Term.h lines 225-234, the destructor: what is_commutative says is deleted as
   an iterator of a vector, and the other way round *)
Definition destroy (i : iterator) : M unit := delete (negb (is_commutative i)) (it_ i).

(* Term.h lines 236-242 *)
Definition deref (i : iterator) : M term :=
  s <- read (is_commutative i) (it_ i) ;;
  lift (match lookup Z.eqb (owner s) cs with
        | None => UB
        | Some c => if place s <? 0 then UB
                    else match nth_error (members c) (Z.to_nat (place s)) with Some t => Ok t | None => UB end
        end).

(* Term.h lines 244-251, ++it; the result is the iterator itself *)
Definition incr (i : iterator) : M unit :=
  s <- read (is_commutative i) (it_ i) ;; s' <- lift (moved s 1) ;; write (it_ i) s'.

(* Term.h lines 258-272.  The other block is read as the first one's flag
   says.  Iterators of different containers must not be compared. *)
Definition equal (i j : iterator) : M bool :=
  s <- read (is_commutative i) (it_ i) ;;
  t <- read (is_commutative i) (it_ j) ;;
  lift (if (owner s =? owner t) && has Z.eqb (owner s) cs then Ok (place s =? place t) else UB).
Definition differ (i j : iterator) : M bool := b <- equal i j ;; ret (negb b).

(* Term.h lines 274-288, it + n *)
Definition plus (i : iterator) (n : Z) : M iterator :=
  s <- read (is_commutative i) (it_ i) ;; s' <- lift (moved s n) ;;
  a <- new s' ;; ret (It (is_commutative i) a).

(* Term.h lines 289-303, it - n *)
Definition minus (i : iterator) (n : Z) : M iterator := plus i (- n).

(* Term.h lines 253-256, it++: a reference to the iterator after the step *)
Definition post_incr (i : iterator) : M iterator := incr i ;;; ret i.

(* ---- loops ---- *)

(* for (auto it = c.begin(); it != c.end(); ++it) with a body, as in Term.h
   lines 485-488 (there with it++, the result of which is not used); the
   iterator made by end() goes after the comparison. *)
Fixpoint loop {A} (fuel : nat) (c : Z) (it : iterator) (body : iterator -> A -> M A) (acc : A) : M A :=
  match fuel with
  | O => lift OutOfFuel
  | S fuel' =>
      e <- end_of c ;;
      b <- leaving (differ it e) (destroy e) ;;
      if (b : bool) then
        acc <- body it acc ;; incr it ;;; loop fuel' c it body acc
      else ret acc
  end.

Definition size (c : Z) : nat :=
  match lookup Z.eqb c cs with None => O | Some k => length (members k) end.

Definition for_each {A} (c : Z) (body : iterator -> A -> M A) (acc : A) : M A :=
  it <- begin_of c ;;
  leaving (loop (S (size c)) c it body acc) (destroy it).

(* for (auto &t : c), as in Compound.cpp lines 308-309, and the loops within
   std::accumulate of lines 312-314 and vector::insert of line 98: begin and
   end are asked for once.  Copies that the library makes of the two on the way
   are left out. *)
Fixpoint range_loop {A} (fuel : nat) (it e : iterator) (body : A -> term -> res A) (acc : A) : M A :=
  match fuel with
  | O => lift OutOfFuel
  | S fuel' =>
      b <- differ it e ;;
      if (b : bool) then
        t <- deref it ;; acc <- lift (body acc t) ;; incr it ;;; range_loop fuel' it e body acc
      else ret acc
  end.

Definition range_for {A} (c : Z) (body : A -> term -> res A) (acc : A) : M A :=
  it <- begin_of c ;;
  leaving (e <- end_of c ;;
           leaving (range_loop (S (size c)) it e body acc) (destroy e)) (destroy it).

(* Term.h lines 480-497, fill_terms: what is inserted or pushed back *)
Definition collect (c : Z) : M (list term) :=
  for_each c (fun it acc => t <- deref it ;; ret (acc ++ [t])) [].

(* Interpreter/src/Interpreter.cpp lines 79-93, append_strs, with its
   iterators: components.end() - 1 makes two of them. *)
Definition append_loop (colored : bool) (interpret : term -> res string) (c : Z) : M string :=
  for_each c (fun it acc =>
    t <- deref it ;;
    s <- lift (interpret t) ;;
    e <- end_of c ;;
    more <- leaving (l <- minus e 1 ;; leaving (differ it l) (destroy l)) (destroy e) ;;
    if (more : bool) then
      sep <- lift (if colored then fg color_seperator ", " [] else Ok ", ") ;;
      ret (acc ++ s ++ sep)%string
    else ret (acc ++ s)%string) "".

End Operations.

(* ---- programs ---- *)

(* What a program can do with iterators in variables: declare one as c.begin(),
   c.end(), a copy, a copy of y++, y + n or y - n; assign; ++x; read; compare;
   leave the scope of a variable; and a container can go away. *)
Inductive instr :=
  | Begin (x : string) (c : Z)
  | End (x : string) (c : Z)
  | Copy (x y : string)
  | Post (x y : string)
  | Plus (x y : string) (n : Z)
  | Minus (x y : string) (n : Z)
  | Assign (x y : string)
  | Next (x : string)
  | Read (x : string)
  | Equal (x y : string)
  | Differ (x y : string)
  | Drop (x : string)
  | Gone (c : Z).

(* What a program gets to see *)
Inductive seen := Saw (t : term) | Told (b : bool).

(* The containers, and the variables *)
Record machine := Machine { conts : containers; vars : list (string * iterator) }.

(* A name that is not declared, or declared already, makes no program. *)
Definition var (m : machine) (x : string) : M iterator :=
  lift (match lookup String.eqb x (vars m) with Some i => Ok i | None => UB end).
Definition declare (m : machine) (x : string) (i : M iterator) : M (machine * list seen) :=
  if has String.eqb x (vars m) then lift UB
  else i <- i ;; ret (Machine (conts m) ((x, i) :: vars m), []).

Definition exec (m : machine) (p : instr) : M (machine * list seen) :=
  let cs := conts m in
  match p with
  | Begin x c => declare m x (begin_of cs c)
  | End x c => declare m x (end_of cs c)
  | Copy x y => i <- var m y ;; declare m x (copy i)
  | Post x y => i <- var m y ;; declare m x (i <- post_incr cs i ;; copy i)
  | Plus x y n => i <- var m y ;; declare m x (plus cs i n)
  | Minus x y n => i <- var m y ;; declare m x (minus cs i n)
  | Assign x y =>
      _ <- var m x ;; j <- var m y ;;
      ret (Machine cs (Maps.set String.eqb x (assigned j) (vars m)), [])
  | Next x => i <- var m x ;; incr cs i ;;; ret (m, [])
  | Read x => i <- var m x ;; t <- deref cs i ;; ret (m, [Saw t])
  | Equal x y => i <- var m x ;; j <- var m y ;; b <- equal cs i j ;; ret (m, [Told b])
  | Differ x y => i <- var m x ;; j <- var m y ;; b <- differ cs i j ;; ret (m, [Told b])
  | Drop x => i <- var m x ;; destroy i ;;; ret (Machine cs (unset String.eqb x (vars m)), [])
  | Gone c => if has Z.eqb c cs then ret (Machine (unset Z.eqb c cs) (vars m), []) else lift UB
  end.

Fixpoint run (m : machine) (p : list instr) : M (machine * list seen) :=
  match p with
  | [] => ret (m, [])
  | i :: p' =>
      r <- exec m i ;; q <- run (fst r) p' ;; ret (fst q, snd r ++ snd q)
  end.

(* ---- Python ---- *)

(* Narsese/src/Term.cpp line 116, py::make_iterator(terms->begin(),
   terms->end()): the two iterators are kept by the Python object, the
   container is not; and a flag that is true before the first and after the
   last element. *)
Record py_iterator := Py { py_it : iterator; py_end : iterator; py_fresh : bool }.

Definition py_terms (cs : containers) (c : Z) : M py_iterator :=
  i <- begin_of cs c ;; e <- end_of cs c ;; ret (Py i e true).

(* __next__ of the binding library; None is StopIteration *)
Definition py_next (cs : containers) (p : py_iterator) : M (py_iterator * option term) :=
  (if py_fresh p then ret tt else incr cs (py_it p)) ;;;
  b <- equal cs (py_it p) (py_end p) ;;
  if (b : bool) then ret (Py (py_it p) (py_end p) true, None)
  else t <- deref cs (py_it p) ;; ret (Py (py_it p) (py_end p) false, Some t).

(* A for loop in Python, the iterator going away in the end; [gone] is the
   number of rounds after which the container has lost its last owner, if it
   does so *)
Fixpoint py_rounds (fuel : nat) (cs : containers) (c : Z) (gone : option nat) (p : py_iterator) : M (list term) :=
  match fuel with
  | O => lift OutOfFuel
  | S fuel' =>
      let cs := match gone with Some O => unset Z.eqb c cs | _ => cs end in
      r <- py_next cs p ;;
      match snd r with
      | None => destroy (py_end p) ;;; destroy (py_it p) ;;; ret []
      | Some t => l <- py_rounds fuel' cs c (option_map pred gone) (fst r) ;; ret (t :: l)
      end
  end.

Definition py_for (cs : containers) (c : Z) (gone : option nat) : M (list term) :=
  p <- py_terms cs c ;; py_rounds (S (size cs c)) cs c gone p.
