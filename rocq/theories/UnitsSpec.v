(* Vocabulary for the properties of the clocks and counters of the units. *)
From Coq Require Import ZArith List Bool.
From Verif Require Import Base Hash Evidence EvidenceSpec Units.
Import ListNotations.
Local Open Scope Z_scope.

(* What a program does from x to x': steps of the kinds P on stamps and bases,
   at places that use the copies told by [copy], and writing of clocks in the
   units W.  [d u] is the number of input ids taken from the counter of u. *)
Inductive goes (maximum duration : Z) (copy : Z -> Z) (P : kind -> Prop) (W : Z -> Prop)
  : units -> (Z -> Z) -> units -> Prop :=
| goes_none x : goes maximum duration copy P W x (fun _ => 0) x
| goes_work x d x' s k n st :
    goes maximum duration copy P W x d x' -> P k -> k <> Tick ->
    step maximum duration (look x' (copy s)) k n st ->
    goes maximum duration copy P W x
      (fun u => if u =? copy s then d u + n else d u) (keep x' (copy s) st)
| goes_write x d x' u t :
    goes maximum duration copy P W x d x' -> W u -> 0 <= t < two64 ->
    goes maximum duration copy P W x d (write x' u t).

Definition anywhere (u : Z) : Prop := True.

(* What a marker of the input language says about the tense. *)
Definition said (duration : Z) (mk : option marker) (t : tense) : Prop :=
  match mk with
  | None => t = Eternal
  | Some MPast => t = Past
  | Some MPresent => t = Present
  | Some MFuture => t = Future
  | Some (MTime n) => (t = Past <-> n <= - duration) /\ (t = Present <-> - duration < n < duration)
                      /\ (t = Future <-> duration <= n)
  end.
