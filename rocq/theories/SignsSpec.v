(* Specification vocabulary for the classes of copulas and connectors: what
   their signs look like. *)
From Coq Require Import String Ascii.
Local Open Scope string_scope.

(* A character seen in a mirror *)
Definition mirrored (c : ascii) : ascii :=
  if (c =? "<")%char then ">" else if (c =? ">")%char then "<"
  else if (c =? "/")%char then "\" else if (c =? "\")%char then "/"
  else if (c =? "{")%char then "}" else if (c =? "}")%char then "{"
  else if (c =? "[")%char then "]" else if (c =? "]")%char then "["
  else c.

(* A text seen in a mirror *)
Fixpoint mirror (s : string) : string :=
  match s with
  | EmptyString => ""
  | String c s' => mirror s' ++ String (mirrored c) ""
  end.

(* The text contains the character. *)
Fixpoint contains (x : ascii) (s : string) : Prop :=
  match s with
  | EmptyString => False
  | String c s' => c = x \/ contains x s'
  end.

(* A sign in which time plays a part *)
Definition timed (s : string) : Prop := contains "/" s \/ contains "|" s \/ contains "\" s.

(* The text with past and future exchanged *)
Fixpoint turned (s : string) : string :=
  match s with
  | EmptyString => ""
  | String c s' => String (if (c =? "/")%char then "\" else if (c =? "\")%char then "/" else c) (turned s')
  end.

(* Two arrows with the same shaft, the second pointing both ways: --> and <->,
   =/> and </>. *)
Definition both_ways (s s' : string) : Prop :=
  exists a b, s = String a (String b ">") /\ s' = String "<" (String b ">").
