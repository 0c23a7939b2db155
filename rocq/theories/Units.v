(* The two globals of Global.h as they are: static, so that every translation
   unit that includes the header (all of Narsese/src, Narsese/Parser,
   Interpreter/src and the client's files, CMakeLists.txt l.24-36, 48, 68) has
   its own copy of them. *)
From Coq Require Import ZArith List Bool.
From Verif Require Import Base Evidence.
Import ListNotations.
Local Open Scope Z_scope.

(* Global.h l.6-7 in every unit; units are numbered.  [memory] is the memory
   all units share; its own time and counter are those of the unit that worked
   last. *)
Record units : Type := Units {
  memory : store;
  clock : Z -> Z;     (* GLOBAL::time of each unit *)
  counter : Z -> Z    (* GLOBAL::_input_id of each unit *)
}.

(* Global.h l.6-7: at the start *)
Definition first_units : units :=
  Units (Store (fun _ => []) (fun _ => Base 0 0 false) 1 1 0 0) (fun _ => 0) (fun _ => 0).

(* What code that uses the copies of the unit u sees *)
Definition look (x : units) (u : Z) : store :=
  Store (sets (memory x)) (bases (memory x)) (free_set (memory x)) (free_base (memory x)) (clock x u) (counter x u).

(* and what it leaves when it has turned the memory into st. *)
Definition keep (x : units) (u : Z) (st : store) : units :=
  Units st (assign (clock x) u (time st)) (assign (counter x) u (input_id st)).

(* GLOBAL::time = t, written in the unit u (Global.h l.6) *)
Definition write (x : units) (u t : Z) : units :=
  Units (memory x) (assign (clock x) u t) (counter x).

(* The inline functions (Global.h l.9-14; Evidence.h l.26-30; Sentence.h l.58,
   60, 83-95) name the static variables, which differ from unit to unit.  A
   call uses the copies of its own unit where the compiler put the body in
   place, and of the unit whose body the linker kept otherwise: an oracle
   [copy] tells the unit for each place in the program. *)

(* NarseseParser.cpp l.128-150 and alike: a sentence is read at the place s *)
Definition read_stamp (copy : Z -> Z) (duration : Z) (x : units) (s : Z) (mk : option marker) : units * stamp :=
  let '(st, p) := parsed_stamp duration (look x (copy s)) mk in (keep x (copy s) st, p).

(* Sentence.h l.83-95: the tense is asked for at the place s; Interpreter.cpp
   l.269, l.286 are such places *)
Definition shown_tense (copy : Z -> Z) (duration : Z) (x : units) (s : Z) (p : stamp) : tense :=
  tense_of duration (look x (copy s)) p.
