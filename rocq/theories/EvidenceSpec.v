(* Vocabulary of the properties of evidential bases and stamps *)
From Coq Require Import ZArith List Bool Sorting.Sorted.
From Verif Require Import Base Hash Evidence.
Import ListNotations.
Local Open Scope Z_scope.

(* The state at the start of the program; the counter starts at 0 (Global.h
   l.7) and the clock may show any time *)
Definition start (t : Z) : store := Store (fun _ => []) (fun _ => Base 0 0 false) 1 1 t 0.

(* A Base object made earlier *)
Definition made (st : store) (b : Z) : Prop := 1 <= b < free_base st.

(* What a step of a history does: make a Base, make a Base on the set of
   another one, change a Base by add, change it by extend or interleave, ask
   for a hash, or let time pass *)
Inductive kind := Make | Share | Add (set : Z) | Merge (set : Z) | Ask | Tick.

(* One step, with the number of input ids it takes.  Add and Merge are labelled
   with the set they change. *)
Inductive step (maximum duration : Z) : store -> kind -> Z -> store -> Prop :=
| step_new st st' b :
    new_base st = (st', b) -> step maximum duration st Make 1 st'
| step_of st s st' b :
    StronglySorted Z.lt s -> new_base_of st s = (st', b) ->
    step maximum duration st Make 0 st'
| step_share st b st' b' :
    made st b -> new_base_sharing st (set_at (bases st b)) = (st', b') ->
    step maximum duration st Share 0 st'
| step_add st b id :
    made st b ->
    step maximum duration st (Add (set_at (bases st b))) 0 (add st b id)
| step_interleave3 st b b1 b2 st' :
    made st b -> made st b1 -> made st b2 ->
    interleave3 maximum st b b1 b2 = Ok st' ->
    step maximum duration st (Merge (set_at (bases st b))) 0 st'
| step_interleave2 st b1 b2 st' b :
    made st b1 -> made st b2 -> interleave2 maximum st b1 b2 = Ok (st', b) ->
    step maximum duration st Make 1 st'
| step_extend st b other st' :
    made st b -> made st other -> extend maximum st b other = Ok st' ->
    step maximum duration st (Merge (set_at (bases st b))) 0 st'
| step_hash st b st' h :
    made st b -> hash_of st b = (st', h) -> step maximum duration st Ask 0 st'
| step_parse st mk st' s :
    parsed_stamp duration st mk = (st', s) -> step maximum duration st Make 1 st'
| step_stamp_bool st e st' s :
    stamp_bool st e = (st', s) -> step maximum duration st Make 1 st'
| step_stamp_int st t st' s :
    stamp_int st t = (st', s) -> step maximum duration st Make 1 st'
| step_tick st t :
    0 <= t < two64 -> step maximum duration st Tick 0 (with_time st t).

(* Histories whose steps satisfy P; n counts the input ids taken *)
Inductive steps (maximum duration : Z) (P : kind -> Prop) : store -> Z -> store -> Prop :=
| steps_none st : steps maximum duration P st 0 st
| steps_more st n st' k n' st'' :
    steps maximum duration P st n st' -> P k ->
    step maximum duration st' k n' st'' ->
    steps maximum duration P st (n + n') st''.

Definition any (k : kind) : Prop := True.

(* Steps that do not change the set at one of the addresses *)
Definition sparing (l : list Z) (k : kind) : Prop :=
  match k with
  | Add a | Merge a => ~ In a l
  | _ => True
  end.

(* Steps other than sharing a set, interleaving into a Base and extending it *)
Definition plain (k : kind) : Prop :=
  match k with
  | Share | Merge _ => False
  | _ => True
  end.

(* States of the program *)
Definition reached (maximum duration : Z) (st : store) : Prop :=
  exists t n, 0 <= t < two64 /\ steps maximum duration any (start t) n st.

(* Two Base objects that do not share their set *)
Definition separate (st : store) (b b' : Z) : Prop :=
  set_at (bases st b) <> set_at (bases st b').

(* The n smallest (oldest) ids of a set *)
Definition oldest (n : nat) (s : list Z) (x : Z) : Prop := In x (firstn n s).
