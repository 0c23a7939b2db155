(* Model of the life of term objects: Term.h, Term.inl, Variable.inl,
   Statement.inl, Compound.inl, the end of Compound.cpp, Interval.h,
   Operation.h and utils/IndexVar.{h,cpp}, as far as they make, copy and
   release shared pointers.  Hashes, positions and the values of ints are left
   out; which components a Terms keeps, and in which order, is left open. *)
From Coq Require Import String ZArith List Bool Arith.
From Verif Require Import Base.
Import ListNotations.

(* The dynamic class of a term object (Term.h l.81, Operation.h l.17,
   Interval.h l.20, Variable.h l.26, Statement.h l.38, Compound.h l.49). *)
Inductive tclass : Type :=
  | CPlain
  | COperation
  | CInterval
  | CVariable (name : string)
  | CStatement
  | CCompound.

(* Term.h l.101-104: has_var, has_ivar, has_dvar, has_qvar. *)
Record flags : Type := Flags { f_var : bool; f_ivar : bool; f_dvar : bool; f_qvar : bool }.

(* The objects that shared pointers lead to.  A number stands for a
   std::shared_ptr to the object in that slot. *)
Inductive body : Type :=
  (* Term.h l.84-120: subject, predicate, terms and the three index lists *)
  | BTerm (c : tclass) (f : flags) (subject predicate terms : option nat) (vi vd vq : nat)
  (* Term.h l.311-312: terms_ordered, or terms_unordered *)
  | BTerms (l : list nat)
  (* IndexVar.h l.34-43: _indices_normalized, indices, successors, _is_built;
     predecessor is a weak pointer, which keeps nothing alive and is never
     read *)
  | BIndex (normalized : option nat) (indices successors : list nat) (built : bool)
  (* the int of a pInt (IndexVar.h l.14) *)
  | BInt
  (* the vector of _indices_normalized (IndexVar.h l.34) *)
  | BVector.

Definition opt (o : option nat) : list nat := match o with Some n => [n] | None => [] end.

(* The shared pointers inside of an object, in the order of declaration. *)
Definition refs (b : body) : list nat :=
  match b with
  | BTerm _ _ s p t vi vd vq => opt s ++ opt p ++ opt t ++ [vi; vd; vq]
  | BTerms l => l
  | BIndex n i s _ => opt n ++ i ++ s
  | BInt | BVector => []
  end.

(* One object: its use count, whether it is alive, and whether the buffer of
   a std::string inside of it is allocated (Variable.h l.29; strings of up to
   15 bytes have none, as in libstdc++). *)
Record slot : Type := Slot { s_count : nat; s_live : bool; s_buffer : bool; s_body : body }.
Definition mem : Type := list slot.

Fixpoint set_nth {A : Type} (n : nat) (x : A) (l : list A) : list A :=
  match l, n with
  | [], _ => []
  | _ :: l', O => x :: l'
  | y :: l', S n' => y :: set_nth n' x l'
  end.

(* Access to an object: undefined if it does not exist any more. *)
Definition look (m : mem) (n : nat) : res slot :=
  match nth_error m n with
  | Some s => if s_live s then Ok s else UB
  | None => UB
  end.
Definition body_at (m : mem) (n : nat) : res body := bind (look m n) (fun s => Ok (s_body s)).

(* Assignment to members of an object. *)
Definition write (m : mem) (n : nat) (b : body) : res mem :=
  bind (look m n) (fun s => Ok (set_nth n (Slot (s_count s) true (s_buffer s) b) m)).

(* Copying a shared pointer. *)
Definition acquire (m : mem) (n : nat) : res mem :=
  bind (look m n) (fun s => Ok (set_nth n (Slot (S (s_count s)) true (s_buffer s) (s_body s)) m)).
Fixpoint acquire_all (m : mem) (l : list nat) : res mem :=
  match l with
  | [] => Ok m
  | n :: l' => bind (acquire m n) (fun m1 => acquire_all m1 l')
  end.

(* A new object with one shared pointer to it.  The shared pointers in its
   members are moved in: they have been counted before. *)
Definition has_buffer (b : body) : bool :=
  match b with BTerm (CVariable name) _ _ _ _ _ _ _ => 15 <? String.length name | _ => false end.
Definition alloc (m : mem) (b : body) : mem * nat :=
  (m ++ [Slot 1 true (has_buffer b) b], length m).

(* All term objects are handed to shared_ptr<Term> as a Term * (Term.h l.56),
   so that the destructor of Term is called and Term's members are destroyed;
   it is not virtual (Term.h l.81-200). *)
Definition deleted_as_made (b : body) : bool :=
  match b with BTerm CPlain _ _ _ _ _ _ _ => true | BTerm _ _ _ _ _ _ _ _ => false | _ => true end.

Section Release.
(* Whether the letter of the C++ standard is followed, by which an object of
   a derived class may not be deleted as a Term. *)
Variable strict : bool.

(* The end of an object: only the destructor that is called releases members. *)
Definition dead (s : slot) : slot :=
  Slot 0 false (if deleted_as_made (s_body s) then false else s_buffer s) (s_body s).

Definition each (f : mem -> nat -> res mem) : mem -> list nat -> res mem :=
  fix go m l := match l with [] => Ok m | n :: l' => bind (f m n) (fun m1 => go m1 l') end.

(* The end of a shared pointer: ~shared_ptr and, for the last one, the
   destructor of the object, whose members go in reverse order. *)
Fixpoint release (fuel : nat) (m : mem) (n : nat) : res mem :=
  match fuel with
  | O => OutOfFuel
  | S fuel' =>
      bind (look m n) (fun s =>
      match s_count s with
      | O => UB
      | S O =>
          if strict && negb (deleted_as_made (s_body s)) then UB
          else each (release fuel') (set_nth n (dead s) m) (rev (refs (s_body s)))
      | S c => Ok (set_nth n (Slot c true (s_buffer s) (s_body s)) m)
      end)
  end.
Definition drop (m : mem) (n : nat) : res mem := release (S (length m)) m n.
Definition drop_all (m : mem) (l : list nat) : res mem := each drop m l.

(* IndexVar.h l.47-50, create *)
Definition new_list (m : mem) : mem * nat := alloc m (BIndex None [] [] false).

(* Three index lists (Term.h l.118-120). *)
Definition new_lists (m : mem) : mem * (nat * nat * nat) :=
  let '(m1, a) := new_list m in
  let '(m2, b) := new_list m1 in
  let '(m3, c) := new_list m2 in
  (m3, (a, b, c)).

(* n times new int *)
Fixpoint new_ints (m : mem) (n : nat) : mem * list nat :=
  match n with
  | O => (m, [])
  | S n' => let '(m1, a) := alloc m BInt in let '(m2, l) := new_ints m1 n' in (m2, a :: l)
  end.

(* IndexVar.h l.52-71, clone *)
Definition copy_list (m : mem) (n : nat) : res (mem * nat) :=
  bind (body_at m n) (fun b =>
  match b with
  | BIndex norm ints _ _ =>
      let '(m1, norm') := match norm with
                          | Some _ => let '(m', v) := alloc m BVector in (m', Some v)
                          | None => (m, None)
                          end in
      let '(m2, ints') := new_ints m1 (length ints) in
      Ok (alloc m2 (BIndex norm' ints' [] false))
  | _ => UB
  end).

(* IndexVar.h l.84-92, indices_normalized: makes a vector unless there is one. *)
Definition normalize (m : mem) (n : nat) : res mem :=
  bind (body_at m n) (fun b =>
  match b with
  | BIndex None i s k =>
      let '(m1, v) := alloc m BVector in write m1 n (BIndex (Some v) i s k)
  | BIndex (Some _) _ _ _ => Ok m
  | _ => UB
  end).

(* IndexVar.cpp l.63-72, connect without generate_pos.  The copies of the
   arguments made for the call are gone at its end. *)
Definition connect (m : mem) (father son : nat) : res mem :=
  bind (body_at m father) (fun b =>
  match b with
  | BIndex norm i s _ =>
      bind (write m father (BIndex None i s false)) (fun m1 =>
      bind (drop_all m1 (opt norm)) (fun m2 =>
      bind (acquire m2 son) (fun m3 =>
      write m3 father (BIndex None i (s ++ [son]) false))))
  | _ => UB
  end).

(* IndexVar.cpp l.90-118, build(false): l.95-99, the loop of l.101-114, and
   l.116-117, where the hash calls indices_normalized.  A hash kept from
   before is not modelled: a list that has a hash has its vector. *)
Fixpoint build (fuel : nat) (m : mem) (n : nat) : res mem :=
  match fuel with
  | O => OutOfFuel
  | S fuel' =>
      bind (body_at m n) (fun b =>
      match b with
      | BIndex norm i s true => Ok m
      | BIndex norm i s false =>
          let i' := match s with [] => i | _ => [] end in
          bind (write m n (BIndex norm i' s false)) (fun m1 =>
          bind (drop_all m1 (match s with [] => [] | _ => i end)) (fun m2 =>
          bind (each (fun m3 son =>
                  bind (build fuel' m3 son) (fun m4 =>
                  bind (body_at m4 son) (fun bs =>
                  match bs with
                  | BIndex _ is _ _ =>
                      bind (acquire_all m4 is) (fun m5 =>
                      bind (body_at m5 n) (fun bn =>
                      match bn with
                      | BIndex x j t k => write m5 n (BIndex x (j ++ is) t k)
                      | _ => UB
                      end))
                  | _ => UB
                  end))) m2 s) (fun m6 =>
          bind (body_at m6 n) (fun bn =>
          match bn with
          | BIndex x j t _ => bind (write m6 n (BIndex x j t true)) (fun m7 => normalize m7 n)
          | _ => UB
          end))))
      | _ => UB
      end)
  end.

(* Term.h l.180-194: one branch of _build_indexvars. *)
Definition build_one (m : mem) (has : bool) (n : nat) : res mem :=
  if has then build (S (length m)) m n
  else bind (body_at m n) (fun b =>
       match b with BIndex x i s _ => write m n (BIndex x i s true) | _ => UB end).

(* The members of a term object. *)
Definition term_at (m : mem) (n : nat)
    : res (tclass * flags * option nat * option nat * option nat * (nat * nat * nat)) :=
  bind (body_at m n) (fun b =>
  match b with BTerm c f s p t vi vd vq => Ok (c, f, s, p, t, (vi, vd, vq)) | _ => UB end).
Definition terms_at (m : mem) (n : nat) : res (list nat) :=
  bind (body_at m n) (fun b => match b with BTerms l => Ok l | _ => UB end).
Definition flags_at (m : mem) (n : nat) : res flags :=
  bind (term_at m n) (fun x => let '(_, f, _, _, _, _) := x in Ok f).
Definition list_at (m : mem) (n : nat) : res nat :=
  bind (term_at m n) (fun x => let '(_, _, _, _, _, (vi, _, _)) := x in Ok vi).

(* Statement.h l.51-72 and Compound.h l.83-107, do_hashing: the hash asks for
   the normalised indices of the three lists. *)
Definition hash_lists (m : mem) (v : nat * nat * nat) : res mem :=
  let '(a, b, c) := v in
  bind (normalize m a) (fun m1 => bind (normalize m1 b) (fun m2 => normalize m2 c)).

(* Term.inl l.16-42, _init_indexvars: the independent list of every term is
   joined to all three lists. *)
Definition join_lists (m : mem) (v : nat * nat * nat) (terms : list nat) : res mem :=
  let '(a, b, c) := v in
  each (fun m t =>
    bind (list_at m t) (fun son =>
    bind (connect m a son) (fun m1 => bind (connect m1 b son) (fun m2 => connect m2 c son)))) m terms.

(* Term.h l.180-194, _build_indexvars *)
Definition build_lists (m : mem) (v : nat * nat * nat) (f : flags) : res mem :=
  let '(a, b, c) := v in
  bind (build_one m (f_ivar f) a) (fun m1 =>
  bind (build_one m1 (f_dvar f) b) (fun m2 => build_one m2 (f_qvar f) c)).

(* Term.h l.160-171, _refresh_var_status *)
Fixpoint any_flags (m : mem) (l : list nat) : res flags :=
  match l with
  | [] => Ok (Flags false false false false)
  | n :: l' =>
      bind (flags_at m n) (fun f =>
      bind (any_flags m l') (fun g =>
      Ok (Flags (f_var f || f_var g) (f_ivar f || f_ivar g) (f_dvar f || f_dvar g) (f_qvar f || f_qvar g))))
  end.

(* Term.h l.126-127 for CPlain, Operation.h l.21-25, Interval.h l.24-28. *)
Definition simple (m : mem) (c : tclass) : mem * nat :=
  let '(m1, (a, b, d)) := new_lists m in
  alloc m1 (BTerm c (Flags false false false false) None None None a b d).

Inductive vkind : Type := Independent | Dependent | Query.

(* Variable.inl l.34-61; with [indexed], add(idx, {}) is called afterwards on
   the list of the kind (NarseseParser.cpp l.729, 745, 761), which gives it
   one new int. *)
Definition variable (m : mem) (k : vkind) (name : string) (indexed : bool) : res (mem * nat) :=
  let '(m1, (a, b, c)) := new_lists m in
  let f := match k with
           | Independent => Flags true true false false
           | Dependent => Flags true false true false
           | Query => Flags true false false true
           end in
  let '(m2, t) := alloc m1 (BTerm (CVariable name) f None None None a b c) in
  if indexed then
    let l := match k with Independent => a | Dependent => b | Query => c end in
    let '(m3, i) := alloc m2 BInt in
    bind (write m3 l (BIndex None [i] [] false)) (fun m4 => Ok (m4, t))
  else Ok (m2, t).

(* Variable.inl l.17-32, the copy constructor.  The copies of the other's
   lists that Term's copy constructor makes are gone at the end. *)
Definition copy_variable (m : mem) (c : tclass) (f : flags) (v : nat * nat * nat) : res (mem * nat) :=
  let '(vi, vd, vq) := v in
  bind (copy_list m vi) (fun r1 =>
  bind (copy_list (fst r1) vd) (fun r2 =>
  bind (copy_list (fst r2) vq) (fun r3 =>
  Ok (alloc (fst r3) (BTerm c f None None None (snd r1) (snd r2) (snd r3)))))).

(* Which elements of a list a Terms keeps, and in which order: positions. *)
Definition picked (pick : list nat) (l : list nat) : list nat :=
  flat_map (fun i => opt (nth_error l i)) pick.
Definition unpicked (pick : list nat) (l : list nat) : list nat :=
  flat_map (fun i => opt (nth_error l i))
           (filter (fun i => negb (existsb (Nat.eqb i) pick)) (seq 0 (length l))).

(* How the sets of a program choose: given the elements pushed, the positions
   of those that are kept. *)
Variable choose : mem -> list nat -> list nat.

(* Clones of all elements of a list. *)
Definition clones (f : mem -> nat -> res (mem * nat)) : mem -> list nat -> res (mem * list nat) :=
  fix go m l := match l with
                | [] => Ok (m, [])
                | n :: l' => bind (f m n) (fun r => bind (go (fst r) l') (fun r' => Ok (fst r', snd r :: snd r')))
                end.

(* The elements pushed into a new Terms (Term.h l.437-443); those that are not
   kept go. *)
Definition fill (m : mem) (l : list nat) : res (mem * nat) :=
  let pick := choose m l in
  bind (drop_all m (unpicked pick l)) (fun m1 => Ok (alloc m1 (BTerms (picked pick l)))).

(* Statement.inl l.38-76 with deep = true, on the parts s and p of the other
   statement. *)
Definition statement_copy (cl : mem -> nat -> res (mem * nat)) (m : mem) (f : flags) (s p : nat)
    : res (mem * nat) :=
  let '(m0, v) := new_lists m in
  bind (cl m0 s) (fun r1 =>
  bind (cl (fst r1) p) (fun r2 =>
  bind (join_lists (fst r2) v [snd r1; snd r2]) (fun m3 =>
  bind (build_lists m3 v f) (fun m4 =>
  let '(a, b, c) := v in
  Ok (alloc m4 (BTerm CStatement f (Some (snd r1)) (Some (snd r2)) None a b c)))))).

(* Compound.inl l.12-62 with deep = true: a compound without variables shares
   the Terms of the other. *)
Definition compound_copy (cl : mem -> nat -> res (mem * nat)) (m : mem) (f : flags) (t : nat)
    : res (mem * nat) :=
  let '(m0, v) := new_lists m in
  bind (if f_var f then
          bind (terms_at m0 t) (fun l =>
          bind (clones cl m0 l) (fun r => fill (fst r) (snd r)))
        else bind (acquire m0 t) (fun m1 => Ok (m1, t))) (fun r =>
  bind (terms_at (fst r) (snd r)) (fun l =>
  bind (join_lists (fst r) v l) (fun m3 =>
  bind (build_lists m3 v f) (fun m4 =>
  let '(a, b, c) := v in
  Ok (alloc m4 (BTerm CCompound f None None (Some (snd r)) a b c)))))).

(* Term.inl l.182-219, clone.  The result is a new shared pointer. *)
Fixpoint clone (fuel : nat) (m : mem) (n : nat) : res (mem * nat) :=
  match fuel with
  | O => OutOfFuel
  | S fuel' =>
      bind (term_at m n) (fun x =>
      let '(c, f, s, p, t, v) := x in
      if f_var f then
        match c, s, p, t with
        | CVariable _, _, _, _ => copy_variable m c f v
        | CStatement, Some s', Some p', _ => statement_copy (clone fuel') m f s' p'
        | CCompound, _, _, Some t' => compound_copy (clone fuel') m f t'
        | CStatement, _, _, _ | CCompound, _, _, _ => UB
        | _, _, _, _ => Throw
        end
      else bind (acquire m n) (fun m1 => Ok (m1, n)))
  end.
Definition clone_of (m : mem) (n : nat) : res (mem * nat) := clone (S (length m)) m n.

(* A copied pTerm, or a clone. *)
Definition part (is_input : bool) (m : mem) (n : nat) : res (mem * nat) :=
  if is_input then bind (acquire m n) (fun m1 => Ok (m1, n)) else clone_of m n.

(* Statement.inl l.10-36 *)
Definition statement (m : mem) (s p : nat) (is_input : bool) : res (mem * nat) :=
  let '(m0, v) := new_lists m in
  bind (part is_input m0 s) (fun r1 =>
  bind (part is_input (fst r1) p) (fun r2 =>
  bind (hash_lists (fst r2) v) (fun m3 =>
  bind (any_flags m3 [snd r1; snd r2]) (fun f =>
  bind (join_lists m3 v [snd r1; snd r2]) (fun m4 =>
  bind (build_lists m4 v f) (fun m5 =>
  let '(a, b, c) := v in
  Ok (alloc m5 (BTerm CStatement f (Some (snd r1)) (Some (snd r2)) None a b c)))))))).

(* Compound.cpp l.292-319, where t is the Terms that prepocess_terms has
   returned (l.299).  What that function does is done by the other operations:
   it takes parts, fills Terms and makes compounds. *)
Definition compound (m : mem) (t : nat) (is_input : bool) : res (mem * nat) :=
  let '(m0, v) := new_lists m in
  bind (if is_input then bind (acquire m0 t) (fun m1 => Ok (m1, t))
        else bind (terms_at m0 t) (fun l =>
             bind (clones clone_of m0 l) (fun r => fill (fst r) (snd r)))) (fun r =>
  bind (terms_at (fst r) (snd r)) (fun l =>
  bind (hash_lists (fst r) v) (fun m3 =>
  bind (any_flags m3 l) (fun f =>
  bind (join_lists m3 v l) (fun m4 =>
  bind (build_lists m4 v f) (fun m5 =>
  let '(a, b, c) := v in
  Ok (alloc m5 (BTerm CCompound f None None (Some (snd r)) a b c)))))))).

(* Statement.inl l.38-76 and Compound.inl l.12-62, called directly. *)
Definition duplicate (m : mem) (n : nat) (deep : bool) : res (mem * nat) :=
  bind (term_at m n) (fun x =>
  let '(c, f, s, p, t, v) := x in
  let '(vi, vd, vq) := v in
  if deep then
    match c, s, p, t with
    | CVariable _, _, _, _ => copy_variable m c f v
    | CStatement, Some s', Some p', _ => statement_copy clone_of m f s' p'
    | CCompound, _, _, Some t' => compound_copy clone_of m f t'
    | _, _, _, _ => UB
    end
  else
    let '(m0, (a, b, d)) := new_lists m in
    bind (acquire_all m0 (opt s ++ opt p ++ opt t ++ [vi; vd; vq])) (fun m1 =>
    bind (drop_all m1 [a; b; d]) (fun m2 =>
    Ok (alloc m2 (BTerm c f s p t vi vd vq))))).

(* What a program does.  Numbers are shared pointers it holds. *)
Inductive action : Type :=
  | MakeSimple (c : tclass)
  | MakeVariable (k : vkind) (name : string) (indexed : bool)
  | MakeTerms (l : list nat)
  | MakeStatement (s p : nat) (is_input : bool)
  | MakeCompound (t : nat) (is_input : bool)
  | Clone (n : nat)
  | Duplicate (n : nat) (deep : bool)
  | Take (n r : nat)
  | Copy (n : nat)
  | Drop (n : nat).

(* One action: the memory, and the shared pointers held afterwards.
   MakeTerms: Terms::create and the constructors of Terms (Term.h l.318-365).
   Take: copying a member of an object (the members are public). *)
Fixpoint remove_one (n : nat) (l : list nat) : list nat :=
  match l with [] => [] | x :: l' => if n =? x then l' else x :: remove_one n l' end.
Definition act (m : mem) (held : list nat) (a : action) : res (mem * list nat) :=
  let keep r := bind r (fun x => Ok (fst x, snd x :: held)) in
  match a with
  | MakeSimple c => keep (Ok (simple m c))
  | MakeVariable k name i => keep (variable m k name i)
  | MakeTerms l => keep (bind (acquire_all m l) (fun m1 => fill m1 l))
  | MakeStatement s p i => keep (statement m s p i)
  | MakeCompound t i => keep (compound m t i)
  | Clone n => keep (clone_of m n)
  | Duplicate n d => keep (duplicate m n d)
  | Take n r => keep (bind (acquire m r) (fun m1 => Ok (m1, r)))
  | Copy n => keep (bind (acquire m n) (fun m1 => Ok (m1, n)))
  | Drop n => bind (drop m n) (fun m1 => Ok (m1, remove_one n held))
  end.
End Release.
