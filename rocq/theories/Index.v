(* Model of the whole public interface of utils/IndexVar.h and
   utils/IndexVar.cpp, used by a program in any order.  IndexVar.v models the
   calls the library itself makes. *)
From Coq Require Import ZArith List Bool.
From Verif Require Import Base Hash IndexVar.
Import ListNotations.
Local Open Scope Z_scope.

(* v[i] of a std::vector with an int index: outside of the vector the
   behaviour is undefined (IndexVar.cpp l.136 and l.152). *)
Definition nth_son (l : list nat) (i : Z) : res nat :=
  if i <? 0 then UB
  else match nth_error l (Z.to_nat i) with Some s => Ok s | None => UB end.

(* IndexVar.cpp l.133-137 and l.149-153: the walk from an object to the
   object at a position. *)
Fixpoint walk (h : heap) (n : nat) (position : list Z) : res nat :=
  match position with
  | [] => Ok n
  | p :: rest => bind (nth_son (iv_successors (node h n)) p) (fun s => walk h s rest)
  end.

(* IndexVar.cpp l.124-125 and l.146-147: _is_hashed = false and
   _indices_normalized = nullptr. *)
Definition forget (h : heap) (n : nat) : heap :=
  let o := node h n in
  set_node h n (IV None (iv_positions o) (iv_indices o) (iv_hash o) false
                   (iv_successors o) (iv_built o)).

(* IndexVar.cpp l.129-130 and l.154-155: indices.clear() and
   positions.clear(). *)
Definition wipe (h : heap) (n : nat) : heap :=
  let o := node h n in
  set_node h n (IV (iv_normalized o) [] [] (iv_hash o) (iv_hashed o)
                   (iv_successors o) (iv_built o)).

(* IndexVar.cpp l.138-139: one entry with the empty position at the end of
   the lists of an object. *)
Definition push (h : heap) (n : nat) (c : nat) : heap :=
  let o := node h n in
  set_node h n (IV (iv_normalized o) (iv_positions o ++ [[]]) (iv_indices o ++ [c])
                   (iv_hash o) (iv_hashed o) (iv_successors o) (iv_built o)).

(* IndexVar.cpp l.120-142, add.  The new int is a new cell. *)
Definition add (h : heap) (n : nat) (idx : Z) (position : list Z) : res heap :=
  let c := length (cells h) in
  let h1 := forget (Heap (cells h ++ [idx]) (nodes h) (next_id h)) n in
  let h2 := match position with [] => wipe h1 n | _ => h1 end in
  bind (walk h2 n position) (fun m => Ok (push h2 m c)).

(* IndexVar.cpp l.144-156, remove. *)
Definition remove (h : heap) (n : nat) (position : list Z) : res heap :=
  let h1 := forget h n in
  bind (walk h1 n position) (fun m => Ok (wipe h1 m)).

(* IndexVar.cpp l.63-88, connect.  With generate_pos, l.84 inserts the range
   [begin, end) of son->indices into son->indices itself, which
   std::vector::insert does not allow; on an empty list nothing is
   inserted (simplification: the call with two equal iterators into the
   vector is taken to be harmless, as it is in practice). *)
Definition connect_with (generate_pos : bool) (h : heap) (father son : nat) : res heap :=
  let h1 := connect h father son in
  if negb generate_pos then Ok h1
  else
    match iv_indices (node h1 son) with
    | _ :: _ => UB
    | [] =>
        let f := node h1 father in
        let s := node h1 son in
        let bias := Z.of_nat (length (iv_successors f)) - 1 in
        Ok (set_node h1 father
              (IV (iv_normalized f)
                  (iv_positions f ++ map (cons bias) (iv_positions s) ++ iv_positions s)
                  (iv_indices f) (iv_hash f) (iv_hashed f) (iv_successors f) (iv_built f)))
    end.

(* IndexVar.cpp l.90-118, build(rebuild); rebuild() of IndexVar.h l.79-82 is
   build(true).  The recursion depth is bounded by the fuel; running out is a
   separate outcome. *)
Fixpoint build_with (rebuild : bool) (fuel : nat) (h : heap) (n : nat) : res heap :=
  match fuel with
  | O => OutOfFuel
  | S fuel' =>
      if negb rebuild && iv_built (node h n) then Ok h
      else
        let h1 := clear_lists h n in
        bind (build_sons (build_with rebuild fuel') h1 n 0 (iv_successors (node h1 n)))
          (fun h2 => Ok (hash_iv (mark_built h2 n) n))
  end.

(* IndexVar.h l.84-92 and IndexVar.cpp l.50-61: indices_normalized() and
   normalize() store the normalised list unless there is one. *)
Definition normalized (h : heap) (n : nat) : heap * list Z :=
  let o := node h n in
  match iv_normalized o with
  | Some l => (h, l)
  | None =>
      let l := normalize (values h (iv_indices o)) in
      (set_node h n (IV (Some l) (iv_positions o) (iv_indices o) (iv_hash o) (iv_hashed o)
                        (iv_successors o) (iv_built o)), l)
  end.

(* IndexVar.h l.94-101, do_hashing: computes the hash again, from the stored
   normalised list if there is one. *)
Definition do_hashing (h : heap) (n : nat) : heap :=
  let '(h1, l) := normalized h n in
  let o := node h1 n in
  set_node h1 n (IV (iv_normalized o) (iv_positions o) (iv_indices o)
                    (hash_container (map size_t l) mod 4294967296) true
                    (iv_successors o) (iv_built o)).

(* IndexVar.h l.103-106, __hash__ *)
Definition hash_of (h : heap) (n : nat) : heap * Z :=
  let h1 := if iv_hashed (node h n) then h else do_hashing h n in
  (h1, iv_hash (node h1 n)).

(* IndexVar.h l.108-111, operator== *)
Definition equal_iv (h : heap) (n m : nat) : heap * bool :=
  let '(h1, a) := hash_of h n in
  let '(h2, b) := hash_of h1 m in
  (h2, a =? b).

(* What a program can do with its index lists: the calls of IndexVar.h l.45-111,
   and writing to an int through the pointer that add returns (IndexVar.h
   l.14, l.76). *)
Inductive call : Type :=
  | Create
  | Copy (n : nat)
  | Connect (father son : nat) (generate_pos : bool)
  | Build (n : nat) (rebuild : bool)
  | Add (n : nat) (idx : Z) (position : list Z)
  | Remove (n : nat) (position : list Z)
  | Normalize (n : nat)
  | DoHash (n : nat)
  | Hash (n : nat)
  | Equal (n m : nat)
  | Write (c : nat) (v : Z).

(* One call. *)
Definition exec (fuel : nat) (h : heap) (c : call) : res heap :=
  match c with
  | Create => Ok (fst (new_iv h))
  | Copy n => Ok (fst (clone_iv h n))
  | Connect f s g => connect_with g h f s
  | Build n r => build_with r fuel h n
  | Add n i p => add h n i p
  | Remove n p => remove h n p
  | Normalize n => Ok (fst (normalized h n))
  | DoHash n => Ok (do_hashing h n)
  | Hash n => Ok (fst (hash_of h n))
  | Equal n m => Ok (fst (equal_iv h n m))
  | Write c v => Ok (set_cell h c v)
  end.
