(* Model of Narsese/include/Evidence.h, Global.h and the Stamp class of
   Narsese/include/Sentence.h.

   A std::set<size_t> is the list of its elements in iteration order.  Sets are
   shared between Base objects through shared_ptr, so a Base holds the address
   of its set.  Values the code never looks at are left out: the content of
   _hash before the first hashing, reference counts, and deallocation.  Set
   and object addresses are only compared for equality, so they are drawn
   from counters. *)
From Coq Require Import ZArith List Bool.
From Verif Require Import Base Hash.
Import ListNotations.
Local Open Scope Z_scope.

(* std::set::insert *)
Fixpoint insert (x : Z) (s : list Z) : list Z :=
  match s with
  | [] => [x]
  | y :: s' => if x <? y then x :: s
               else if x =? y then s
               else y :: insert x s'
  end.

(* std::set iterators: None is end(), Some k points to the element k.  They
   stay valid under insertion. *)
Definition iterator := option Z.

(* std::set::begin *)
Definition first (s : list Z) : iterator := hd_error s.

(* iterator ++ : the next larger element of the set as it is now *)
Definition advance (s : list Z) (k : Z) : iterator := find (fun x => k <? x) s.

(* Evidence.h l.23-25, the members of Base *)
Record base := Base { set_at : Z; hash_value : Z; is_hashed : bool }.

(* The memory, the clock and the input counter (Global.h l.6-7).  The two
   globals are static, i.e. one copy for each translation unit; this is the
   copy the code under discussion uses. *)
Record store := Store {
  sets : Z -> list Z;  (* std::set objects by address *)
  bases : Z -> base;   (* Base objects by address *)
  free_set : Z;        (* next unused set address *)
  free_base : Z;       (* next unused Base address *)
  time : Z;            (* GLOBAL::time, unsigned long *)
  input_id : Z         (* GLOBAL::_input_id, unsigned long *)
}.

(* Assignment to one cell *)
Definition assign {A} (f : Z -> A) (x : Z) (v : A) : Z -> A :=
  fun y => if y =? x then v else f y.

Definition with_sets (st : store) (s : Z -> list Z) : store :=
  Store s (bases st) (free_set st) (free_base st) (time st) (input_id st).

Definition with_bases (st : store) (b : Z -> base) : store :=
  Store (sets st) b (free_set st) (free_base st) (time st) (input_id st).

Definition with_time (st : store) (t : Z) : store :=
  Store (sets st) (bases st) (free_set st) (free_base st) t (input_id st).

(* Global.h l.9-14, get_input_id; unsigned long wraps *)
Definition get_input_id (st : store) : store * Z :=
  (Store (sets st) (bases st) (free_set st) (free_base st) (time st)
         ((input_id st + 1) mod two64),
   input_id st).

(* Evidence.h l.31, Base(set<size_t>), on the heap: the set is copied *)
Definition new_base_of (st : store) (s : list Z) : store * Z :=
  (Store (assign (sets st) (free_set st) s)
         (assign (bases st) (free_base st) (Base (free_set st) 0 false))
         (free_set st + 1) (free_base st + 1) (time st) (input_id st),
   free_base st).

(* Evidence.h l.26-30, Base() with the default argument nullptr: a set with
   one fresh id *)
Definition new_base (st : store) : store * Z :=
  let '(st, id) := get_input_id st in
  new_base_of st [id].

(* Evidence.h l.26-30, Base(shared_ptr) with a set in use: the set is shared *)
Definition new_base_sharing (st : store) (set : Z) : store * Z :=
  (Store (sets st) (assign (bases st) (free_base st) (Base set 0 false))
         (free_set st) (free_base st + 1) (time st) (input_id st),
   free_base st).

(* The set of the Base at an address *)
Definition ids (st : store) (b : Z) : list Z := sets st (set_at (bases st b)).

(* Evidence.h l.90, Base::size *)
Definition size (s : list Z) : Z := Z.of_nat (length s).

(* Evidence.h l.45-61: i, it1 and it2 are the loop's variables, len is
   base_length, and d, s1 and s2 the addresses of the three sets.  The fuel
   bounds the number of rounds; the loop would run forever if both iterators
   came to the end early. *)
Fixpoint interleave_loop (fuel : nat) (len : Z) (d s1 s2 : Z)
    (i : Z) (it1 it2 : iterator) (m : Z -> list Z) : res (Z -> list Z) :=
  if i <? len then
    match fuel with
    | O => OutOfFuel
    | S fuel =>
        let '(m, it2, i) :=
          match it2 with
          | Some k => let m := assign m d (insert k (m d)) in
                      (m, advance (m s2) k, i + 1)
          | None => (m, it2, i)
          end in
        let '(m, it1, i) :=
          match it1 with
          | Some k => let m := assign m d (insert k (m d)) in
                      (m, advance (m s1) k, i + 1)
          | None => (m, it1, i)
          end in
        interleave_loop fuel len d s1 s2 i it1 it2 m
    end
  else Ok m.

(* Evidence.h l.41-62, the three-argument interleave, by the addresses of the
   three sets; maximum is CONFIG::maximum_evidential_base_length.  The sum of
   the sizes is a size_t. *)
Definition interleave_sets (maximum : Z) (m : Z -> list Z) (d s1 s2 : Z)
  : res (Z -> list Z) :=
  let len := Z.min ((size (m s1) + size (m s2)) mod two64) maximum in
  interleave_loop (Z.to_nat len) len d s1 s2 0 (first (m s1)) (first (m s2)) m.

(* Evidence.h l.41-62, by the addresses of the three Base objects *)
Definition interleave3 (maximum : Z) (st : store) (b b1 b2 : Z) : res store :=
  bind (interleave_sets maximum (sets st) (set_at (bases st b))
                        (set_at (bases st b1)) (set_at (bases st b2)))
       (fun m => Ok (with_sets st m)).

(* Evidence.h l.33-39, Base::extend.  base1 is a copy of the Base object, not
   of its set: both name the set that l.37 clears. *)
Definition extend (maximum : Z) (st : store) (b other : Z) : res store :=
  let set1 := set_at (bases st b) in
  let m := assign (sets st) set1 [] in
  bind (interleave_sets maximum m (set_at (bases st b)) set1
                        (set_at (bases st other)))
       (fun m => Ok (with_sets st m)).

(* Evidence.h l.64-69, the two-argument interleave *)
Definition interleave2 (maximum : Z) (st : store) (b1 b2 : Z) : res (store * Z) :=
  let '(st, b) := new_base st in
  bind (interleave3 maximum st b b1 b2) (fun st => Ok (st, b)).

(* Evidence.h l.71-76, Base::add *)
Definition add (st : store) (b id : Z) : store :=
  let o := bases st b in
  let st := with_sets st (assign (sets st) (set_at o) (insert id (sets st (set_at o)))) in
  with_bases st (assign (bases st) b (Base (set_at o) (hash_value o) false)).

(* Conversion of a size_t to int (two's complement) *)
Definition to_int (z : Z) : Z := (z + 2147483648) mod 4294967296 - 2147483648.

(* std::set_intersection of two sorted ranges, each element being inserted
   into a std::set<int> (l.80-85); fuel bounds the number of steps. *)
Fixpoint set_intersection (fuel : nat) (a b out : list Z) : res (list Z) :=
  match a, b with
  | x :: a', y :: b' =>
      match fuel with
      | O => OutOfFuel
      | S fuel =>
          if x <? y then set_intersection fuel a' b out
          else if y <? x then set_intersection fuel a b' out
          else set_intersection fuel a' b' (insert (to_int x) out)
      end
  | _, _ => Ok out
  end.

(* Evidence.h l.78-88, Base::is_overlaped *)
Definition is_overlaped (st : store) (b other : Z) : res bool :=
  bind (set_intersection (length (ids st b) + length (ids st other))
                         (ids st b) (ids st other) [])
       (fun out => Ok (negb (match out with [] => true | _ => false end))).

(* Evidence.h l.92-97, do_hashing; utils/hash.h l.28-56 hashes the elements in
   iteration order *)
Definition do_hashing (st : store) (b : Z) : store * Z :=
  let o := bases st b in
  let h := hash_container (sets st (set_at o)) in
  (with_bases st (assign (bases st) b (Base (set_at o) h true)), h).

(* Evidence.h l.99-102, __hash__ *)
Definition hash_of (st : store) (b : Z) : store * Z :=
  let o := bases st b in
  if is_hashed o then (st, hash_value o) else do_hashing st b.

(* Sentence.h l.44-48, the members of Stamp; None is a null pointer *)
Record stamp := Stamp {
  evidential_base : option Z;
  t_creation : Z;
  t_occurrence : Z;
  t_put : Z;
  is_eternal : bool
}.

(* Sentence.h l.62-66, Stamp(int,int,int,pBase,bool).  The assignment in the
   body is to the parameter, which hides the member: a fresh Base is made and
   dropped. *)
Definition stamp5 (st : store) (occurrence creation put : Z) (b : option Z)
    (eternal : bool) : store * stamp :=
  let s := Stamp b creation occurrence put eternal in
  match b with
  | None => let '(st, _) := new_base st in (st, s)
  | Some _ => (st, s)
  end.

(* Sentence.h l.58, Stamp(bool).  Base({id}) is Base(set<size_t>). *)
Definition stamp_bool (st : store) (eternal : bool) : store * stamp :=
  let '(st, id) := get_input_id st in
  let '(st, b) := new_base_of st [id] in
  stamp5 st (to_int (time st)) (to_int (time st)) (-1) (Some b) eternal.

(* Sentence.h l.60, Stamp(int) *)
Definition stamp_int (st : store) (occurrence : Z) : store * stamp :=
  let '(st, id) := get_input_id st in
  let '(st, b) := new_base_of st [id] in
  stamp5 st occurrence (to_int (time st)) (-1) (Some b) false.

(* Tense.h l.10-16 *)
Inductive tense := Past | Present | Future | Eternal.

(* Sentence.h l.84-94, Stamp::tense.  GLOBAL::time is an unsigned long, so the
   sum and the difference wrap modulo 2^64 before the conversion to int;
   duration is CONFIG::temporal_duration, an unsigned int. *)
Definition tense_of (duration : Z) (st : store) (s : stamp) : tense :=
  if is_eternal s then Eternal
  else if to_int ((time st + duration) mod two64) <=? t_occurrence s then Future
  else if t_occurrence s <=? to_int ((time st - duration) mod two64) then Past
  else Present.

(* Sentence.h l.96-99, Stamp::eternalize *)
Definition eternalize (s : stamp) : stamp :=
  Stamp (evidential_base s) (t_creation s) (t_occurrence s) (t_put s) true.

(* Sentence.h l.101-106, Stamp::extend_evidenital_base *)
Definition extend_evidential_base (maximum : Z) (st : store) (s : stamp) (other : Z)
  : res (store * stamp) :=
  let '(st, b) := match evidential_base s with
                  | Some b => (st, b)
                  | None => new_base st
                  end in
  bind (extend maximum st b other)
       (fun st => Ok (st, Stamp (Some b) (t_creation s) (t_occurrence s)
                                (t_put s) (is_eternal s))).

(* The tense markers of the input language: `:/:`, `:|:`, `:\:` and `:!n:`,
   with n already read as a number and converted to int *)
Inductive marker := MFuture | MPresent | MPast | MTime (n : Z).

(* NarseseParser.cpp l.765-791, tense_time, tense_future, tense_present and
   tense_past.  -CONFIG::temporal_duration is computed in unsigned int. *)
Definition marked_time (duration : Z) (mk : marker) : Z :=
  match mk with
  | MFuture => to_int duration
  | MPresent => 0
  | MPast => to_int ((- duration) mod 4294967296)
  | MTime n => n
  end.

(* NarseseParser.cpp l.128-150, l.178-196, l.211-233 and l.261-280: the stamp
   that judgement, question, goal and quest make, given the marker if there
   is one.  (The four pieces of code are alike.  The grammar allows at most
   one marker.) *)
Definition parsed_stamp (duration : Z) (st : store) (mk : option marker)
  : store * stamp :=
  match mk with
  | Some mk => stamp5 st (marked_time duration mk) (to_int (time st)) (-1) None false
  | None => stamp_bool st true
  end.
