(* Vocabulary for what goes right in the symbol table where C30, C35, C84 and
   C85 fail in general. *)
From Coq Require Import ZArith List Bool String Ascii.
From Verif Require Import Base Maps Interning InterningSpec.
Import ListNotations.
Local Open Scope Z_scope.

(* A new atom is anywhere no living atom is, in the 4 GiB from [base]. *)
Definition window (base : Z) (w : world) (a : Z) : Prop :=
  free_place w a /\ base <= a < base + 4294967296.

(* The program holds a handle made for the name. *)
Definition held_name (w : world) (n : string) : Prop :=
  exists h, In h (handles w) /\ hname h = n.

(* [lost_after w x w' lost]: the names that lost their last handle by being
   overwritten and were not asked for again, after the action [x] took [w] to
   [w']; [lost] are those before. *)
Definition lost_after (w : world) (x : act) (w' : world) (lost : list string) : list string :=
  match x with
  | Create n _ => filter (fun m => negb (String.eqb m n)) lost
  | Assign i _ =>
      match nth_error (handles w) i with
      | Some h => if existsb (fun h' => String.eqb (hname h') (hname h)) (handles w')
                  then lost else hname h :: lost
      | None => lost
      end
  | _ => lost
  end.

(* Histories with overwriting, and the names lost in them. *)
Inductive overwriting : world -> list string -> Prop :=
| ow_start : overwriting world0 []
| ow_step w lost x w' :
    overwriting w lost -> no_op x ->
    (forall n a, x = Create n a \/ x = ParseOp n a -> apart w a) ->
    act_on w x = Ok w' -> overwriting w' (lost_after w x w' lost).

(* Histories with operations in which ^n is parsed only while there are
   handles of both n and ^n, or of neither. *)
Definition matched (w : world) (n : string) : Prop :=
  held_name w n <-> held_name w (String "^"%char n).
Inductive op_history : world -> Prop :=
| oph_start : op_history world0
| oph_step w x w' :
    op_history w ->
    (match x with Assign _ _ => False | ParseOp n _ => matched w n | _ => True end) ->
    (forall n a, x = Create n a \/ x = ParseOp n a -> apart w a) ->
    act_on w x = Ok w' -> op_history w'.
