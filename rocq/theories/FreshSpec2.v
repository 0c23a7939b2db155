(* Specification vocabulary for what error_delay = 3 drops. *)
From Coq Require Import String Ascii List.
Import ListNotations.
Open Scope string_scope.

(* The characters no input begins with, apart from control characters and
   letters outside ASCII, which may stand in a word *)
Definition stray (c : ascii) : Prop := In c (list_ascii_of_string "!#%&)*,./:;=>?@\]|}~").
