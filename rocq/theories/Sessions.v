(* Sessions: reading texts, keeping the tasks for a while, printing them and
   letting go of them (main.cpp; the destructors of Task, Sentence, Term and
   pTerm, Narsese/include/Term.inl lines 44-52). *)
From Coq Require Import ZArith String Ascii List Bool.
From Verif Require Import Base Enums Term Actions Printer.
From Verif Require Interning.
Import ListNotations.
Open Scope string_scope.
Open Scope list_scope.
Local Open Scope Z_scope.

(* The atoms in a term (Term.h, Statement.h lines 31-33, Compound.h line 53:
   the pTerms that a term holds) *)
Fixpoint atoms_in (t : term) : list Z :=
  match t with
  | Atom _ a => [a]
  | Var _ _ | Itv _ => []
  | Stmt _ s p => atoms_in s ++ atoms_in p
  | Comp _ l => flat_map atoms_in l
  end.

(* The atoms that what an action made keeps alive (Task.h lines 22-23,
   Sentence.h lines 122-127) *)
Definition atoms_of (v : value) : list Z :=
  match v with
  | VTerm t => atoms_in t
  | VSentence s => atoms_in (content s)
  | VTask t => atoms_in (content (sentence_of t))
  | _ => []
  end.

(* The destructors of pTerms (Term.inl lines 44-52): of the n handles from the
   i-th on those to atoms outside [keep] go, and how many stay.  The order in
   which they go is that of the list. *)
Fixpoint sift (keep : list Z) (i n : nat) (w : Interning.world) : res (nat * Interning.world) :=
  match n with
  | O => Ok (O, w)
  | S n' =>
      match nth_error (Interning.handles w) i with
      | None => Throw
      | Some h =>
          if existsb (Z.eqb (Interning.hat h)) keep
          then bind (sift keep (S i) n' w) (fun '(k, w) => Ok (S k, w))
          else bind (Interning.act_on w (Interning.Drop i)) (sift keep i n')
      end
  end.

(* What the program keeps: the result of a reading, and how many of the
   handles are its own.  The handles of the results come in the order of the
   results, the newest first. *)
Record kept := Kept { item : value; share : nat }.

(* The parser with the text left over and the results kept, the newest first *)
Record desk := Desk { reader : state; leftover : list ascii; items : list kept }.

(* What a program does: read a text, or let go of the i-th result *)
Inductive step := Read (input : string) | Release (i : nat).

(* The handles of the results before the i-th *)
Definition before (l : list kept) (i : nat) : nat := list_sum (map share (firstn i l)).

Section Sessions.
Variable ord : list (option connector * list term) -> list (option connector * list term).
Variable fresh : Interning.world -> Z.
Variable room : option nat.

(* NarseseParser.h lines 16-23 and Parser.cpp lines 28-47 (parse_task): the atoms that are not part
   of the result go.  Sessions end with an exception; there what the actions
   made is never given back (C109). *)
Definition read_text (d : desk) (input : string) : res desk :=
  let st := reader d in
  bind (parse_task ord fresh room st (leftover d) input) (fun '(st', rest, v, thrown) =>
  if thrown then Throw
  else match v with
       | None => Ok (Desk st' rest (items d))
       | Some v =>
           bind (sift (atoms_of v) 0
                  (length (Interning.handles (atoms st')) - length (Interning.handles (atoms st))) (atoms st'))
             (fun '(k, w) => Ok (Desk (with_atoms st' w (operations st')) rest (Kept v k :: items d)))
       end).

(* The destructor of the pointer to the i-th result: all its handles go. *)
Definition release (d : desk) (i : nat) : res desk :=
  match nth_error (items d) i with
  | None => Throw
  | Some it =>
      bind (sift [] (before (items d) i) (share it) (atoms (reader d))) (fun '(_, w) =>
      Ok (Desk (with_atoms (reader d) w (operations (reader d))) (leftover d) (Interning.remove_nth i (items d))))
  end.

Definition take (d : desk) (s : step) : res desk :=
  match s with
  | Read input => read_text d input
  | Release i => release d i
  end.

(* main.cpp lines 30-37, the body of the loop: the task is printed and goes at
   the end of each round; without a task a null pointer is followed. *)
Definition one_round (d : desk) (input : string) : res (desk * string) :=
  bind (read_text d input) (fun d' =>
  if Nat.eqb (length (items d')) (length (items d)) then UB
  else match items d' with
       | Kept (VTask t) _ :: _ =>
           bind (interpret_task (dictionary_of (Interning.tab (atoms (reader d')))) false (store (reader d')) t) (fun s =>
           bind (release d' 0) (fun d'' => Ok (d'', s)))
       | _ => UB
       end).

Fixpoint rounds (d : desk) (l : list string) : res (desk * list string) :=
  match l with
  | [] => Ok (d, [])
  | x :: l' => bind (one_round d x) (fun '(d, s) => bind (rounds d l') (fun '(d, r) => Ok (d, s :: r)))
  end.

End Sessions.

(* main.cpp lines 23-28 *)
Definition test_cases : list string :=
  ["<robin-->bird>."; "(&&, A, B)."; "(&&, A1, B1)."; "(&&, A2, B2)."].
