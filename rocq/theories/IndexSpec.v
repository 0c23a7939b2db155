(* What index lists stand for. *)
From Coq Require Import ZArith List Bool.
From Verif Require Import Base Hash IndexVar Index.
Import ListNotations.
Local Open Scope Z_scope.

(* A call returns normally and leaves the memory h'; it is undefined; it
   never returns. *)
Definition does (h : heap) (c : call) (h' : heap) : Prop := exists fuel, exec fuel h c = Ok h'.
Definition undefined (h : heap) (c : call) : Prop := exists fuel, exec fuel h c = UB.
Definition endless (h : heap) (c : call) : Prop := forall fuel, exec fuel h c = OutOfFuel.

(* The objects and the ints a call is given. *)
Definition objects (c : call) : list nat :=
  match c with
  | Create | Write _ _ => []
  | Copy n | Build n _ | Add n _ _ | Remove n _ | Normalize n | DoHash n | Hash n => [n]
  | Connect a b _ | Equal a b => [a; b]
  end.
Definition ints (c : call) : list nat := match c with Write x _ => [x] | _ => [] end.

(* The object and the int exist. *)
Definition exists_in (h : heap) (c : call) : Prop :=
  (forall n, In n (objects c) -> (n < length (nodes h))%nat)
  /\ (forall x, In x (ints c) -> (x < length (cells h))%nat).

(* s is one of the components joined to n, as number k. *)
Definition son (h : heap) (n : nat) (k : Z) (s : nat) : Prop :=
  0 <= k /\ nth_error (iv_successors (node h n)) (Z.to_nat k) = Some s.

(* m is found at position p below n. *)
Inductive at_position (h : heap) : nat -> list Z -> nat -> Prop :=
  | at_here : forall n, at_position h n [] n
  | at_son : forall n k s p m, son h n k s -> at_position h s p m -> at_position h n (k :: p) m.

(* A program that starts with nothing, hands only existing objects to calls,
   and has reached memory h. *)
Inductive reached : heap -> Prop :=
  | reached_start : reached (Heap [] [] 0)
  | reached_call : forall h c h', reached h -> exists_in h c -> does h c h' -> reached h'.

(* The lists kept in an object, as (position, index) pairs. *)
Definition shown (h : heap) (n : nat) : list (list Z * Z) :=
  List.combine (iv_positions (node h n)) (values h (iv_indices (node h n))).

(* The entries at the ends below n, read off the structure: those of the
   objects without components, in order, each with the way to it. *)
Definition deeper (k : Z) (e : list Z * Z) : list Z * Z := (k :: fst e, snd e).
Inductive content (h : heap) : nat -> list (list Z * Z) -> Prop :=
  | content_end : forall n, iv_successors (node h n) = [] -> content h n (shown h n)
  | content_inner : forall n s sons l, iv_successors (node h n) = s :: sons ->
      contents h 0 (s :: sons) l -> content h n l
with contents (h : heap) : Z -> list nat -> list (list Z * Z) -> Prop :=
  | contents_nil : forall k, contents h k [] []
  | contents_cons : forall k s sons l l', content h s l -> contents h (k + 1) sons l' ->
      contents h k (s :: sons) (map (deeper k) l ++ l').

(* No object is its own component, at any depth. *)
Definition acyclic (h : heap) : Prop := forall n p, at_position h n p n -> p = [].

(* The hash that belongs to a list of entries. *)
Definition proper_hash (l : list (list Z * Z)) : Z :=
  hash_container (map size_t (normalize (map snd l))) mod 4294967296.

(* The entries of a list at a position or beyond it. *)
Fixpoint starts_with (q p : list Z) : bool :=
  match q, p with
  | [], _ => true
  | a :: q', b :: p' => (a =? b) && starts_with q' p'
  | _, _ => false
  end.
Definition beyond (q : list Z) (l : list (list Z * Z)) : list (list Z * Z) :=
  filter (fun e => starts_with q (fst e)) l.

(* l without some of its entries. *)
Inductive part_of {A : Type} : list A -> list A -> Prop :=
  | part_nil : part_of [] []
  | part_skip : forall x l l', part_of l l' -> part_of l (x :: l')
  | part_take : forall x l l', part_of l l' -> part_of (x :: l) (x :: l').

(* n is a component of some object. *)
Definition has_father (h : heap) (n : nat) : Prop := exists f k, son h f k n.
Definition is_end (h : heap) (n : nat) : Prop := iv_successors (node h n) = [].

(* A program that finishes the components before it joins or uses them: it
   changes only objects that are not yet components of others, joins without
   generate_pos and without making a cycle, gives entries only to objects
   without components, asks for hashes only of objects that have been built
   or have no components, and writes to no int of an existing entry. *)
Inductive orderly (h : heap) : call -> Prop :=
  | o_create : orderly h Create
  | o_copy : forall n, orderly h (Copy n)
  | o_connect : forall f s, ~ has_father h f -> (forall p, ~ at_position h s p f) ->
      orderly h (Connect f s false)
  | o_build : forall n r, orderly h (Build n r)
  | o_add : forall n i, ~ has_father h n -> is_end h n -> orderly h (Add n i [])
  | o_remove : forall n, ~ has_father h n -> is_end h n -> orderly h (Remove n [])
  | o_normalize : forall n, iv_built (node h n) = true \/ is_end h n -> orderly h (Normalize n)
  | o_do_hash : forall n, iv_built (node h n) = true \/ is_end h n -> orderly h (DoHash n)
  | o_hash : forall n, iv_built (node h n) = true \/ is_end h n -> orderly h (Hash n)
  | o_equal : forall n m, (iv_built (node h n) = true \/ is_end h n) ->
      (iv_built (node h m) = true \/ is_end h m) -> orderly h (Equal n m).

Inductive in_order : heap -> Prop :=
  | in_order_start : in_order (Heap [] [] 0)
  | in_order_call : forall h c h', in_order h -> exists_in h c -> orderly h c -> does h c h' -> in_order h'.

(* Several calls, one after the other. *)
Inductive calls : heap -> list call -> heap -> Prop :=
  | calls_none : forall h, calls h [] h
  | calls_one : forall h c h1 l h', exists_in h c -> does h c h1 -> calls h1 l h' -> calls h (c :: l) h'.
