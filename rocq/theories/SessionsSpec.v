(* Vocabulary for the properties of sessions. *)
From Coq Require Import ZArith String Ascii List Bool.
From Verif Require Import Base Enums Term Maps Compound Actions Printer PrinterSpec Forms Sessions.
From Verif Require Import Interning InterningSpec.
Import ListNotations.
Open Scope string_scope.
Open Scope list_scope.
Local Open Scope Z_scope.

(* All operations on handles but overwriting them *)
Definition no_assign (x : act) : Prop := match x with Assign _ _ => False | _ => True end.

(* A new atom is apart from the living ones, and its key is not 0, the key
   that looking up an unknown name leaves behind. *)
Definition well_placed (w : world) (a : Z) : Prop := apart w a /\ key_of a <> 0.

(* An allocator that places atoms so as long as it can *)
Definition thoughtful (fresh : world -> Z) : Prop :=
  forall w, population w < 4294967295 -> well_placed w (fresh w).

(* The atoms in a result *)
Definition held_by (v : value) : list Z :=
  match v with
  | VTerm t => addresses t
  | VSentence s => addresses (content s)
  | VTask t => addresses (content (sentence_of t))
  | _ => []
  end.

(* No name is filed under the key of a statement or compound in the term: those
   that are atoms only in the dictionary. *)
Fixpoint unshadowed (names : Z -> option string) (t : term) : Prop :=
  match t with
  | Atom _ _ | Var _ _ | Itv _ => True
  | Stmt _ s p => names (key t) = None /\ unshadowed names s /\ unshadowed names p
  | Comp _ l => names (key t) = None /\ (fix all l := match l with [] => True | x :: l' => unshadowed names x /\ all l' end) l
  end.

(* The names a desk knows *)
Definition names_at (d : desk) : Z -> option string := dictionary_of (tab (atoms (reader d))).

Section Sessions.
Variable ord : list (option connector * list term) -> list (option connector * list term).
Variable fresh : world -> Z.
Variable room : option nat.

(* There are less than 2^32 - 1 pTerms when the text has been read. *)
Definition uncrowded (d : desk) (s : step) : Prop :=
  match s with
  | Read input => forall st rest v b, parse_task ord fresh room (reader d) (leftover d) input = Ok (st, rest, v, b) ->
      population (atoms st) < 4294967295
  | Release _ => True
  end.

(* What any session can lead to that starts with an empty symbol table *)
Inductive reached : desk -> Prop :=
| re_start st rest : atoms st = world0 -> reached (Desk st rest [])
| re_step d s d' : reached d -> uncrowded d s -> take ord fresh room d s = Ok d' -> reached d'.

(* What a session can lead from d to that does not let go of the result *)
Inductive onward (it : kept) (d : desk) : desk -> Prop :=
| on_here : In it (items d) -> onward it d d
| on_step d1 s d2 i : onward it d d1 -> uncrowded d1 s -> take ord fresh room d1 s = Ok d2 ->
    nth_error (items d1) i = Some it -> s <> Release i -> onward it d d2.

(* A text that can be read now: it says what a task says, there is room for it
   and for its atoms, and no name of an operation in it is known without ^. *)
Definition allowed (d : desk) (x : task_form * nat * list nat) : Prop :=
  has_room room (text_for x) /\ proper_text x /\
  population (atoms (reader d)) + 2 * Z.of_nat (mentions (body (task_in x))) < 4294967295 /\
  (forall s, In s (operators (body (task_in x))) ->
     ~ In s (words (body (task_in x))) /\ check_by_name (tab (atoms (reader d))) s = false).

(* What sessions with only such texts can lead to *)
Inductive orderly : desk -> Prop :=
| or_start st : atoms st = world0 -> orderly (Desk st [] [])
| or_read d x d' : orderly d -> allowed d x -> read_text ord fresh room d (text_for x) = Ok d' -> orderly d'
| or_release d i d' : orderly d -> release d i = Ok d' -> orderly d'.

(* The task says what the text says, and exactly its atoms are known, under the
   names they have in the text. *)
Definition reads_as (now : Z) (x : task_form) (tk : task) (names : Z -> option string) : Prop :=
  exists w ops, in_order w ops /\ says ord w now x tk /\
    (forall n a, handed_out w n a -> In a (addresses (content (sentence_of tk))) -> names (key_of a) = Some n) /\
    (forall k n, names k = Some n -> exists a, In a (addresses (content (sentence_of tk))) /\ key_of a = k /\ handed_out w n a).

(* A text that can be read whenever no task is kept *)
Definition alone (x : task_form * nat * list nat) : Prop :=
  has_room room (text_for x) /\ proper_text x /\
  2 * Z.of_nat (mentions (body (task_in x))) < 4294967295 /\
  (forall s, In s (operators (body (task_in x))) -> ~ In s (words (body (task_in x)))).
End Sessions.
