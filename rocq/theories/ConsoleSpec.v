(* Vocabulary for reading from the console. *)
From Coq Require Import ZArith String Ascii List Bool.
From Verif Require Import Base Buffer.
Import ListNotations.
Open Scope list_scope.
Open Scope Z_scope.

(* The bytes of a text as getchar gives them *)
Definition bytes (s : string) : list Z :=
  map (fun c => Z.of_nat (nat_of_ascii c)) (list_ascii_of_string s).

(* A text that is typed: s and the return key *)
Definition typed (s : string) : list Z := bytes s ++ [10].

(* A line of ASCII characters, without NUL *)
Definition plain (s : string) : Prop := Forall (fun v => 0 < v < 128 /\ v <> 10) (bytes s).

(* What a parse gives when more was there to be read behind its input *)
Definition before (later : list Z) (r : res (ending * buffer)) : res (ending * buffer) :=
  match r with
  | Ok (e, b) => Ok (e, Buf (cells b) (used b) (queue b ++ later) (ended b))
  | UB => UB
  | Throw => Throw
  | OutOfFuel => OutOfFuel
  end.
