(* Reading from the console: Parser::parse_input. *)
From Coq Require Import ZArith String Ascii List Bool.
From Verif Require Import Base Tables Parser Buffer Term Actions.
From Verif Require Interning.
Import ListNotations.
Open Scope list_scope.
Open Scope Z_scope.

(* Parser.cpp lines 49-52 with narsese.h lines 213-216 (fetch_stdin) and
   228-231, narsese.cpp lines 673-961: one call of parse_input up to the syntax
   tree, with the buffer that earlier calls have left.  stream are the bytes
   that getchar is still to give; it gives EOF ever after (refill of Buffer.v).
   What is left of the stream is the queue of the resulting buffer.  EOF counts
   as one character more. *)
Definition console (room : option nat) (b : buffer) (stream : list Z) : res (ending * buffer) :=
  mrun (enough (S (used b + length stream)))
    (Machine [Cell 0 []] (Buf (cells b) (used b) stream false) 0 room Look (1%nat, 1%nat)).

(* k calls one after another *)
Fixpoint consoles (room : option nat) (k : nat) (b : buffer) (stream : list Z)
  : res (list ending * buffer) :=
  match k with
  | O => Ok ([], Buf (cells b) (used b) stream (ended b))
  | S k' =>
      bind (console room b stream) (fun '(e, b') =>
      bind (consoles room k' b' (queue b')) (fun '(es, b'') => Ok (e :: es, b'')))
  end.

Section Values.
Variable ord : list (option Enums.connector * list term) -> list (option Enums.connector * list term).
Variable fresh : Interning.world -> Z.

(* Parser.cpp lines 53-62: from the result of the parse to the value, as in
   parse_string, but without the clearing of the names of variables that
   parse_task begins with (NarseseParser.h lines 18-20). *)
Definition finish_input (st : Actions.state) (o : outcome) : res (Actions.state * option value * bool) :=
  let tree := match o with Accepted l => l | Rejected => pending st end in
  match tree with
  | [] => Ok (st, None, false)
  | _ =>
      match transform_all ord fresh st tree with
      | Ok (st, v :: _) => Ok (with_pending st [], Some v, false)
      | Ok (_, []) => UB
      | Throw => Ok (with_pending st tree, None, true)
      | UB => UB
      | OutOfFuel => OutOfFuel
      end
  end.

(* What the parser built, or that it built nothing *)
Definition outcome_of (e : ending) : outcome :=
  match e with Built t => Accepted t | Failed _ _ => Rejected end.

(* One call of parse_input. *)
Definition parse_input (room : option nat) (st : Actions.state) (b : buffer) (stream : list Z)
  : res (Actions.state * buffer * option value * bool) :=
  bind (console room b stream) (fun '(e, b') =>
  bind (finish_input st (outcome_of e)) (fun '(st, v, thrown) => Ok (st, b', v, thrown))).
End Values.
