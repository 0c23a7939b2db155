(* Properties of coloured text *)
From Coq Require Import ZArith String Ascii List Bool.
From Verif Require Import Base Printer PrinterSpec PrinterFacts3 ColourSpec ColourFacts.
Import ListNotations.
Open Scope string_scope.
Open Scope Z_scope.

(* ---- C192 ---- *)
Theorem C192_colour : forall r g b s, 0 <= r <= 255 -> 0 <= g <= 255 -> 0 <= b <= 255 -> tame s ->
  exists x y z, fg (RGB r g b) s [] =
      Ok (String "027" ("[38;2;" ++ x ++ ";" ++ y ++ ";" ++ z ++ "m" ++ s ++ String "027" "[0m")) /\
    String.length x = 3%nat /\ String.length y = 3%nat /\ String.length z = 3%nat /\
    denotes 0 x = Some r /\ denotes 0 y = Some g /\ denotes 0 z = Some b.
Proof. exact coloured. Qed.
Print Assumptions C192_colour.

Example C192_case : (0 <= 77 <= 255 /\ 0 <= 196 <= 255 /\ 0 <= 9 <= 255) /\ tame "<a --> b>" /\
  fg (RGB 77 196 9) "x" [] = Ok (String "027" ("[38;2;077;196;009mx" ++ String "027" "[0m")).
Proof. exact colour_case. Qed.
