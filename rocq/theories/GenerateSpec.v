(* Notions used to state what the generator writes. *)
From Coq Require Import ZArith String Ascii List Bool.
From Verif Require Import Base Tables Dispatch.
Import ListNotations.
Open Scope string_scope.
Open Scope list_scope.

Definition newline : ascii := ascii_of_nat 10.
Definition tabulator : ascii := ascii_of_nat 9.
Definition double_quote : ascii := ascii_of_nat 34.

(* Lines of text, each closed by a newline. *)
Definition as_lines (l : list string) : string :=
  fold_right (fun s r => s ++ String newline r)%string "" l.

(* s with blanks in front, w characters wide if it is not longer. *)
Definition right_aligned (w : nat) (s t : string) : Prop :=
  (exists b, t = (b ++ s)%string /\ Forall (eq " "%char) (list_ascii_of_string b)) /\
  String.length t = Nat.max w (String.length s).

(* The length of the longest name. *)
Definition longest_of (es : list string) (w : nat) : Prop :=
  (forall e, In e es -> (String.length e <= w)%nat) /\ (w = 0%nat \/ exists e, In e es /\ String.length e = w).

(* The lines for one name. *)
Definition prototype_line (e : string) : string := String tabulator ("extern void* " ++ e ++ "(Args &args);").

Definition definition_lines (e : string) : list string :=
  [("void* NARSESEPARSER::" ++ e ++ "(Args& args)")%string; "{"; String tabulator "void* ret;";
   String tabulator "return ret;"; "}"].

Definition registration_line (w : nat) (e line : string) : Prop := exists a b,
  right_aligned (w + 3) (String double_quote (e ++ String double_quote "")) a /\
  right_aligned (w + 1) e b /\
  line = String tabulator ("regist(" ++ a ++ ", " ++ b ++ " );").

(* The tables of the grammar as the generator sees them. *)
Definition placed {A} (name : A -> string) (at_ : nat -> Z) (l : list A) : list (Z * string) :=
  combine (map at_ (seq 0 (List.length l))) (map name l).

Definition production_entries (pl : placement) : list (Z * string) :=
  placed (fun r => fst (fst r)) (fun i => pl (InProductions i)) productions.
Definition symbol_entries (pl : placement) : list (Z * string) :=
  placed fst (fun i => pl (InSymbols i)) symbols.

(* The names of the entries that are not at a given address. *)
Inductive elsewhere (empty : Z) : list (Z * string) -> list string -> Prop :=
  | E_none : elsewhere empty [] []
  | E_there s l es : elsewhere empty l es -> elsewhere empty ((empty, s) :: l) es
  | E_other a s l es : a <> empty -> elsewhere empty l es -> elsewhere empty ((a, s) :: l) (s :: es).
