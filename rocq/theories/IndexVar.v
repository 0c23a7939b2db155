(* Model of utils/IndexVar.h and utils/IndexVar.cpp: index lists of variables. *)
From Coq Require Import ZArith List Bool.
From Verif Require Import Base Hash.
Import ListNotations.

(* std::set<int>::insert, on the ascending sequence of the elements (used in
   IndexVar.cpp l.19). *)
Fixpoint zinsert (x : Z) (s : list Z) : list Z :=
  match s with
  | [] => [x]
  | y :: s' =>
      if (x <? y)%Z then x :: s
      else if (y <? x)%Z then y :: zinsert x s'
      else s
  end.

(* IndexVar.cpp l.19-20: p1 and p2, the distinct values in ascending order. *)
Definition distinct (l : list Z) : list Z := fold_left (fun s x => zinsert x s) l [].

(* IndexVar.cpp l.22-26: mapping[p2[i]] = i; mapping[p] of an absent key is 0
   (std::map::operator[]). *)
Fixpoint rank (p2 : list Z) (i x : Z) : Z :=
  match p2 with
  | [] => 0
  | y :: p2' => if (x =? y)%Z then i else rank p2' (i + 1) x
  end.

(* IndexVar.cpp l.17-35, _normalize *)
Definition normalize (variables : list Z) : list Z :=
  map (rank (distinct variables) 0) variables.

(* IndexVar.h l.33-43.  [indices] holds the addresses of int cells; the field
   predecessor is written but never read anywhere and is left out. *)
Record ivnode : Type := IV {
  iv_normalized : option (list Z);
  iv_positions : list (list Z);
  iv_indices : list nat;
  iv_hash : Z;
  iv_hashed : bool;
  iv_successors : list nat;
  iv_built : bool
}.

(* IndexVar.h l.45: IndexVar() *)
Definition empty_iv : ivnode := IV None [] [] 0 false [] false.

(* The memory used by terms: int cells, IndexVar objects (both addressed by
   their number; nothing is ever freed or moved here) and the number of term
   objects allocated so far. *)
Record heap : Type := Heap {
  cells : list Z;
  nodes : list ivnode;
  next_id : Z
}.

Definition cell (h : heap) (c : nat) : Z := nth c (cells h) 0%Z.
Definition node (h : heap) (n : nat) : ivnode := nth n (nodes h) empty_iv.
Definition values (h : heap) (cs : list nat) : list Z := map (cell h) cs.

(* Writing through a pointer. *)
Fixpoint replace_nth {A : Type} (n : nat) (x : A) (l : list A) : list A :=
  match l, n with
  | [], _ => []
  | _ :: l', O => x :: l'
  | y :: l', S n' => y :: replace_nth n' x l'
  end.
Definition set_node (h : heap) (n : nat) (v : ivnode) : heap :=
  Heap (cells h) (replace_nth n v (nodes h)) (next_id h).
Definition set_cell (h : heap) (c : nat) (v : Z) : heap :=
  Heap (replace_nth c v (cells h)) (nodes h) (next_id h).

(* IndexVar.h l.47-50, create *)
Definition new_iv (h : heap) : heap * nat :=
  (Heap (cells h) (nodes h ++ [empty_iv]) (next_id h), length (nodes h)).

(* IndexVar.h l.52-71, clone: fresh int cells; links and _is_built keep their
   defaults. *)
Definition clone_iv (h : heap) (n : nat) : heap * nat :=
  let o := node h n in
  let fresh := seq (length (cells h)) (length (iv_indices o)) in
  (Heap (cells h ++ values h (iv_indices o))
        (nodes h ++ [IV (iv_normalized o) (iv_positions o) fresh
                        (iv_hash o) (iv_hashed o) [] false])
        (next_id h),
   length (nodes h)).

(* IndexVar.cpp l.63-72, connect with generate_pos = false (its only use,
   Term.inl l.25 and l.39). *)
Definition connect (h : heap) (father son : nat) : heap :=
  let f := node h father in
  set_node h father
    (IV None (iv_positions f) (iv_indices f) (iv_hash f) false
        (iv_successors f ++ [son]) false).

(* IndexVar.cpp l.120-142, add with the empty position (its only use,
   NarseseParser.cpp l.729, 745, 761). *)
Definition add_here (h : heap) (n : nat) (idx : Z) : heap :=
  let o := node h n in
  let h1 := Heap (cells h ++ [idx]) (nodes h) (next_id h) in
  set_node h1 n (IV None [[]] [length (cells h)] (iv_hash o) false
                    (iv_successors o) (iv_built o)).

(* IndexVar.h l.84-106: indices_normalized, do_hashing and __hash__ as called
   at the end of build; _hash_value is an unsigned int. *)
Definition hash_iv (h : heap) (n : nat) : heap :=
  let o := node h n in
  if iv_hashed o then h
  else
    let norm := match iv_normalized o with
                | Some l => l
                | None => normalize (values h (iv_indices o))
                end in
    set_node h n
      (IV (Some norm) (iv_positions o) (iv_indices o)
          (hash_container (map size_t norm) mod 4294967296) true
          (iv_successors o) (iv_built o)).

(* IndexVar.cpp l.102-113: what one successor contributes to its father. *)
Definition append_son (h : heap) (n : nat) (bias : Z) (son : nat) : heap :=
  let o := node h n in
  let s := node h son in
  set_node h n
    (IV (iv_normalized o) (iv_positions o ++ map (cons bias) (iv_positions s))
        (iv_indices o ++ iv_indices s) (iv_hash o) (iv_hashed o)
        (iv_successors o) (iv_built o)).

(* IndexVar.cpp l.95-99 *)
Definition clear_lists (h : heap) (n : nat) : heap :=
  let o := node h n in
  match iv_successors o with
  | [] => h
  | _ => set_node h n (IV (iv_normalized o) [] [] (iv_hash o) (iv_hashed o)
                          (iv_successors o) (iv_built o))
  end.

(* IndexVar.cpp l.116 *)
Definition mark_built (h : heap) (n : nat) : heap :=
  let o := node h n in
  set_node h n (IV (iv_normalized o) (iv_positions o) (iv_indices o) (iv_hash o)
                   (iv_hashed o) (iv_successors o) true).

(* IndexVar.cpp l.101-114: the loop over the successors. *)
Fixpoint build_sons (build : heap -> nat -> res heap) (h : heap) (n : nat)
    (bias : Z) (sons : list nat) : res heap :=
  match sons with
  | [] => Ok h
  | s :: sons' =>
      bind (build h s) (fun h1 =>
        build_sons build (append_son h1 n bias s) n (bias + 1) sons')
  end.

(* IndexVar.cpp l.90-118, build(false).  The recursion depth is bounded by the
   fuel; running out is a separate outcome. *)
Fixpoint build (fuel : nat) (h : heap) (n : nat) : res heap :=
  match fuel with
  | O => OutOfFuel
  | S fuel' =>
      if iv_built (node h n) then Ok h
      else
        let h1 := clear_lists h n in
        bind (build_sons (build fuel') h1 n 0 (iv_successors (node h1 n)))
          (fun h2 => Ok (hash_iv (mark_built h2 n) n))
  end.
