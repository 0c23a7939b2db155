(* Vocabulary for sessions at the console with refused lines. *)
From Coq Require Import ZArith String Ascii List Bool.
From Verif Require Import Base Parser ParserSpec Buffer.
Import ListNotations.

(* The stack of the parser is large enough for a line, and the buffer is not
   written behind its end (C60, C106). *)
Definition short_line (room : option nat) (s : string) : Prop :=
  (room = unlimited /\ String.length s <= 127 \/ room = allocated /\ String.length s <= 123)%nat.

(* What the calls say that read one line: one call says what a string gives;
   when it is refused, the next ones may read some end of it as if it were a
   line of its own. *)
Inductive answers (room : option nat) : string -> list ending -> Prop :=
  | A_read s t : parse room [] s = Ok (Accepted t, []) -> answers room s [Built t]
  | A_refused s p token : parse room [] s = Ok (Rejected, []) -> answers room s [Failed p token]
  | A_again s s1 s2 p token es : parse room [] s = Ok (Rejected, []) -> s = (s1 ++ s2)%string -> s1 <> ""%string ->
      answers room s2 es -> answers room s (Failed p token :: es).
