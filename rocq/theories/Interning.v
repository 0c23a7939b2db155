(* The symbol table (Interpreter/include/Interpreter.hpp) and the life of
   interned atoms (Term.cpp: Term::create(word), Term.inl: ~pTerm). *)
From Coq Require Import ZArith List Bool String Ascii.
From Verif Require Import Base Hash Enums Term Maps.
Import ListNotations.
Local Open Scope Z_scope.

(* Conversion to a 32-bit int, as in put(int key, ...) called with a size_t. *)
Definition int32 (z : Z) : Z :=
  let m := z mod 4294967296 in if m <? 2147483648 then m else m - 4294967296.

(* Interpreter.hpp l.36-39: the four maps.  Keys are size_t made from an int by
   sign extension; the model keeps the int.  [objs] holds pTerm pointers, 0 is
   nullptr. [cnt] holds ints; they are unbounded here (overflow needs 2^31
   registrations of one key). *)
Record table : Type := Tab {
  dict : list (Z * string);
  objs : list (Z * Z);
  inv : list (string * Z);
  cnt : list (Z * Z)
}.

Definition empty_table : table := Tab [] [] [] [].

(* Interpreter.hpp l.52: check *)
Definition check (t : table) (k : Z) : bool := has Z.eqb k (dict t).

(* Interpreter.hpp l.53: check_by_name *)
Definition check_by_name (t : table) (n : string) : bool := has String.eqb n (inv t).

(* Interpreter.hpp l.54-69: check_count; forgets a zero count *)
Definition check_count (t : table) (k : Z) : Z * table :=
  match lookup Z.eqb k (cnt t) with
  | None => (0, t)
  | Some c => (c, if c =? 0 then Tab (dict t) (objs t) (inv t) (unset Z.eqb k (cnt t)) else t)
  end.

(* Interpreter.hpp l.41-47: put.  The assignment's right side is evaluated first. *)
Definition put (t : table) (k : Z) (n : string) (obj : Z) : table :=
  let t1 := Tab (set Z.eqb k n (dict t)) (set Z.eqb k obj (objs t)) (set String.eqb n k (inv t)) (cnt t) in
  let (c, t2) := check_count t1 k in
  let new := if c =? 0 then 1
             else match lookup Z.eqb k (cnt t2) with Some x => x + 1 | None => 1 end in
  Tab (dict t2) (objs t2) (inv t2) (set Z.eqb k new (cnt t2)).

(* Interpreter.hpp l.49: get, operator[] adds an empty name *)
Definition get (t : table) (k : Z) : string * table :=
  match lookup Z.eqb k (dict t) with
  | Some n => (n, t)
  | None => (EmptyString, Tab (set Z.eqb k EmptyString (dict t)) (objs t) (inv t) (cnt t))
  end.

(* Interpreter.hpp l.50: get_object, operator[] adds a null pointer *)
Definition get_object (t : table) (k : Z) : Z * table :=
  match lookup Z.eqb k (objs t) with
  | Some p => (p, t)
  | None => (0, Tab (dict t) (set Z.eqb k 0 (objs t)) (inv t) (cnt t))
  end.

(* Interpreter.hpp l.51: get_by_name, operator[] adds the key 0 *)
Definition get_by_name (t : table) (n : string) : Z * table :=
  match lookup String.eqb n (inv t) with
  | Some k => (k, t)
  | None => (0, Tab (dict t) (objs t) (set String.eqb n 0 (inv t)) (cnt t))
  end.

(* Interpreter.hpp l.71-94: remove up to and without [delete ptr]; returns the
   result, the table with the object erased and the pointer to delete.  The
   destructor run by delete may call remove again (see [world] below); for a
   table whose objects are registered under their own key that call finds the
   key gone and does nothing. *)
Definition remove (t : table) (k : Z) : bool * table * list Z :=
  match lookup Z.eqb k (dict t) with
  | None => (false, t, [])
  | Some n =>
      (true,
       Tab (unset Z.eqb k (dict t)) (unset Z.eqb k (objs t)) (unset String.eqb n (inv t)) (unset Z.eqb k (cnt t)),
       match lookup Z.eqb k (objs t) with Some p => [p] | None => [] end)
  end.

(* Interpreter.hpp l.95-119: remove_by_name *)
Definition remove_by_name (t : table) (n : string) : bool * table * list Z :=
  match lookup String.eqb n (inv t) with
  | None => (false, t, [])
  | Some k =>
      let inv' := unset String.eqb n (inv t) in
      if check t k then
        (true,
         Tab (unset Z.eqb k (dict t)) (unset Z.eqb k (objs t)) inv' (unset Z.eqb k (cnt t)),
         match lookup Z.eqb k (objs t) with Some p => [p] | None => [] end)
      else (true, Tab (dict t) (objs t) inv' (cnt t), [])
  end.

(* Interpreter.hpp l.121-136: erase *)
Definition erase (t : table) (k : Z) : bool * table * list Z :=
  let (c, t1) := check_count t k in
  if 0 <? c then
    let t2 := Tab (dict t1) (objs t1) (inv t1) (set Z.eqb k (c - 1) (cnt t1)) in
    if c - 1 =? 0 then let '(_, t3, del) := remove t2 k in (true, t3, del)
    else (true, t2, [])
  else (false, t1, []).

(* Interpreter.hpp l.150-165: reset.  [alone p] tells whether use_count() of
   the pTerm at p is 1; reading it through nullptr is undefined. *)
Definition reset (t : table) (alone : Z -> bool) : res (table * list Z) :=
  if existsb (fun kp => snd kp =? 0) (objs t) then UB
  else Ok (empty_table, filter alone (map snd (objs t))).

(* Calls on the table. *)
Inductive call : Type :=
| Put (k : Z) (n : string) (obj : Z)
| Get (k : Z)
| GetObject (k : Z)
| GetByName (n : string)
| Check (k : Z)
| CheckByName (n : string)
| CheckCount (k : Z)
| Remove (k : Z)
| RemoveByName (n : string)
| Erase (k : Z)
| Reset (alone : Z -> bool).

(* The table after a call. *)
Definition after (t : table) (c : call) : res table :=
  match c with
  | Put k n o => Ok (put t k n o)
  | Get k => Ok (snd (get t k))
  | GetObject k => Ok (snd (get_object t k))
  | GetByName n => Ok (snd (get_by_name t n))
  | Check _ | CheckByName _ => Ok t
  | CheckCount k => Ok (snd (check_count t k))
  | Remove k => Ok (snd (fst (remove t k)))
  | RemoveByName n => Ok (snd (fst (remove_by_name t n)))
  | Erase k => Ok (snd (fst (erase t k)))
  | Reset alone => bind (reset t alone) (fun r => Ok (fst r))
  end.

Fixpoint after_all (t : table) (cs : list call) : res table :=
  match cs with
  | [] => Ok t
  | c :: cs' => bind (after t c) (fun t' => after_all t' cs')
  end.

(* ---- interned atoms ---- *)

(* A user's handle: a pTerm to the atom at [hat], made for the name [hname]
   (the name is not stored in the code; it serves to state properties). *)
Record handle : Type := Hd { hat : Z; hname : string }.

(* The global table, the heap-allocated pTerms it points to (pointer, address
   of the atom), the next pointer, the handles the program holds.  All these
   pTerms have _interpreter set: copies keep it (Term.h l.51-69, implicit copy
   constructor). An atom lives while some pTerm points to it. *)
Record world : Type := World {
  tab : table;
  held : list (Z * Z);
  next : Z;
  handles : list handle
}.

Definition world0 : world := World empty_table [] 1 [].

(* The key of an atom: its hash value as an int (Term.h l.125, Interpreter.hpp l.41). *)
Definition key_of (a : Z) : Z := int32 (thash (Atom false a)).

Definition occurrences (a : Z) (l : list Z) : nat := List.length (filter (Z.eqb a) l).

(* shared_ptr::use_count *)
Definition use_count (w : world) (a : Z) : nat :=
  (occurrences a (map snd (held w)) + occurrences a (map hat (handles w)))%nat.

Definition with_tab (w : world) (t : table) : world := World t (held w) (next w) (handles w).

(* Interpreter.hpp l.71-94 remove, with delete running the destructor of the
   pTerm in the table: Term.inl l.44-52 ~pTerm, Term.cpp l.42-47. *)
Fixpoint remove_atom (fuel : nat) (w : world) (k : Z) : res world :=
  match fuel with
  | O => OutOfFuel
  | S fuel' =>
      let t := tab w in
      match lookup Z.eqb k (dict t) with
      | None => Ok w
      | Some n =>
          let t1 := Tab (unset Z.eqb k (dict t)) (objs t) (unset String.eqb n (inv t)) (unset Z.eqb k (cnt t)) in
          let w1 := with_tab w t1 in
          match lookup Z.eqb k (objs t1) with
          | None => Ok w1
          | Some p =>
              bind (if p =? 0 then Ok w1
                    else match lookup Z.eqb p (held w1) with
                         | None => UB
                         | Some a =>
                             bind (if Nat.eqb (use_count w1 a) 2 then remove_atom fuel' w1 (key_of a) else Ok w1)
                               (fun w2 => Ok (World (tab w2) (unset Z.eqb p (held w2)) (next w2) (handles w2)))
                         end)
                (fun w3 =>
                   let t3 := tab w3 in
                   Ok (with_tab w3 (Tab (dict t3) (unset Z.eqb k (objs t3)) (inv t3) (cnt t3))))
          end
      end
  end.

(* Term.inl l.44-52, ~pTerm of a handle, before the shared_ptr is released *)
Definition destroy (w : world) (a : Z) : res world :=
  if Nat.eqb (use_count w a) 2 then remove_atom 3 w (key_of a) else Ok w.

Fixpoint remove_nth {A} (i : nat) (l : list A) : list A :=
  match l, i with
  | [], _ => []
  | _ :: l', O => l'
  | x :: l', S i' => x :: remove_nth i' l'
  end.

Definition add_handle (w : world) (h : handle) : world :=
  World (tab w) (held w) (next w) (h :: handles w).

(* a new pTerm on the heap pointing to a new atom at [a], put into the table *)
Definition register (w : world) (n : string) (a : Z) : world :=
  World (put (tab w) (key_of a) n (next w)) (set Z.eqb (next w) a (held w)) (next w + 1) (handles w).

(* *term for a pTerm pointer found in the table *)
Definition deref (w : world) (p : Z) : res Z :=
  if p =? 0 then UB
  else match lookup Z.eqb p (held w) with Some a => Ok a | None => UB end.

(* What a program does with names and handles.  The address of a new atom is
   chosen by the allocator. *)
Inductive act : Type :=
| Create (n : string) (a : Z)        (* Term::create(n); a is used for a new atom *)
| Copy (i : nat)                     (* copy the i-th handle *)
| Drop (i : nat)                     (* destroy the i-th handle *)
| Assign (i j : nat)                 (* i-th handle = j-th handle *)
| ParseOp (n : string) (a : Z).      (* the parser meets ^n *)

(* Term.cpp l.18-40 and NarseseParser.cpp l.421-440 *)
Definition create (w : world) (n : string) (a : Z) : res world :=
  if check_by_name (tab w) n then
    let (k, t1) := get_by_name (tab w) n in
    let (p, t2) := get_object t1 k in
    bind (deref (with_tab w t2) p) (fun a' => Ok (add_handle (with_tab w t2) (Hd a' n)))
  else Ok (add_handle (register w n a) (Hd a n)).

(* NarseseParser.cpp l.455-475: looks for the name without ^ but fetches the
   name with ^. *)
Definition parse_op (w : world) (n : string) (a : Z) : res world :=
  let op := String "^"%char n in
  if check_by_name (tab w) n then
    let (k, t1) := get_by_name (tab w) op in
    let (p, t2) := get_object t1 k in
    bind (deref (with_tab w t2) p) (fun a' => Ok (add_handle (with_tab w t2) (Hd a' op)))
  else Ok (add_handle (register w op a) (Hd a op)).

Definition act_on (w : world) (x : act) : res world :=
  match x with
  | Create n a => create w n a
  | Copy i => match nth_error (handles w) i with Some h => Ok (add_handle w h) | None => Throw end
  | Drop i =>
      match nth_error (handles w) i with
      | None => Throw
      | Some h => bind (destroy w (hat h)) (fun w' =>
          Ok (World (tab w') (held w') (next w') (remove_nth i (handles w'))))
      end
  (* implicit copy assignment of pTerm: no destructor of the old value runs *)
  | Assign i j =>
      match nth_error (handles w) i, nth_error (handles w) j with
      | Some _, Some h => Ok (World (tab w) (held w) (next w)
                                (firstn i (handles w) ++ h :: skipn (S i) (handles w)))
      | _, _ => Throw
      end
  | ParseOp n a => parse_op w n a
  end.

Fixpoint act_all (w : world) (xs : list act) : res world :=
  match xs with
  | [] => Ok w
  | x :: xs' => bind (act_on w x) (fun w' => act_all w' xs')
  end.
