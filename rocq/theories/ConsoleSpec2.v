(* Vocabulary for reading arbitrary bytes from the console. *)
From Coq Require Import ZArith String Ascii List Bool.
From Verif Require Import Base Parser Buffer.
Import ListNotations.
Open Scope list_scope.
Open Scope Z_scope.

(* A character that stands for a value of getchar: EOF is no character of any
   token, as a byte 255 of parse_string is none; NUL is a control character
   like any other; and bytes outside of ASCII are like DEL. *)
Definition stand_in (v : Z) : ascii :=
  if v <? 0 then ascii_of_nat 255
  else if v =? 0 then ascii_of_nat 1
  else if v <? 128 then ascii_of_nat (Z.to_nat v)
  else ascii_of_nat 127.

(* The text that stands for the first line of a stream, with EOF at its end
   when the line is not ended. *)
Fixpoint seen (stream : list Z) : string :=
  match stream with
  | [] => String (stand_in (-1)) EmptyString
  | v :: stream' => if v =? 10 then EmptyString else String (stand_in v) (seen stream')
  end.

(* A syntax tree without the texts of its tokens *)
Fixpoint outline (a : ast) : ast :=
  match a with
  | Leaf e _ => Leaf e EmptyString
  | Node e l => Node e (map outline l)
  end.

(* Ending alike up to the texts of the tokens *)
Definition akin (o : outcome) (e : ending) : Prop :=
  match o, e with
  | Accepted t, Built t' => map outline t = map outline t'
  | Rejected, Failed _ _ => True
  | _, _ => False
  end.

(* What getchar gives before the end of its stream *)
Definition octets (stream : list Z) : Prop := Forall (fun v => 0 <= v < 256) stream.
