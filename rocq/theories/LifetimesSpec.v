(* What the life of term objects is about. *)
From Coq Require Import String ZArith List Bool Arith.
From Verif Require Import Base Lifetimes.
Import ListNotations.

(* Object n exists; r is one of the shared pointers in it. *)
Definition alive (m : mem) (n : nat) : Prop := exists s, nth_error m n = Some s /\ s_live s = true.
Definition points (m : mem) (n r : nat) : Prop :=
  exists s, nth_error m n = Some s /\ s_live s = true /\ In r (refs (s_body s)).

(* What a program that holds some shared pointers can get at. *)
Inductive reachable (m : mem) (held : list nat) : nat -> Prop :=
  | reach_held : forall n, In n held -> reachable m held n
  | reach_next : forall n r, reachable m held n -> points m n r -> reachable m held r.

(* How many shared pointers lead to n: those held and those in living objects. *)
Definition pointers (m : mem) : list nat :=
  flat_map (fun s => if s_live s then refs (s_body s) else []) m.
Definition uses (m : mem) (held : list nat) (n : nat) : nat := count_occ Nat.eq_dec (held ++ pointers m) n.

(* C++ types. *)
Definition is_term (m : mem) (n : nat) : Prop :=
  exists s c f a b t x y z, nth_error m n = Some s /\ s_body s = BTerm c f a b t x y z.
Definition is_terms (m : mem) (n : nat) : Prop := exists s l, nth_error m n = Some s /\ s_body s = BTerms l.
Definition has_class (m : mem) (n : nat) (k : tclass) : Prop :=
  exists s f a b t x y z, nth_error m n = Some s /\ s_body s = BTerm k f a b t x y z.

Definition is_list (m : mem) (n : nat) : Prop :=
  exists s x i su k, nth_error m n = Some s /\ s_body s = BIndex x i su k.

(* The arguments of an action are shared pointers that the program holds, of
   the right types. *)
Definition allowed (m : mem) (held : list nat) (a : action) : Prop :=
  match a with
  | MakeSimple c => c = CPlain \/ c = COperation \/ c = CInterval
  | MakeVariable _ _ _ => True
  | MakeTerms l => forall n, In n l -> In n held /\ is_term m n
  | MakeStatement s p _ => In s held /\ In p held /\ is_term m s /\ is_term m p
  | MakeCompound t _ => In t held /\ is_terms m t
  | Clone n => In n held /\ is_term m n
  | Duplicate n deep =>
      In n held /\ (has_class m n CStatement \/ has_class m n CCompound
                    \/ (deep = true /\ exists name, has_class m n (CVariable name)))
  | Take n r => In n held /\ points m n r
  | Copy n | Drop n => In n held
  end.

(* The choice of a set: some of the positions, each at most once. *)
Definition proper_choice (choose : mem -> list nat -> list nat) : Prop :=
  forall m l, NoDup (choose m l) /\ (forall i, In i (choose m l) -> i < length l).

Section Runs.
Variable choose : mem -> list nat -> list nat.

(* A program that starts with nothing and has reached memory m, holding the
   shared pointers in held.  Objects are deleted as compilers do it. *)
Inductive reached : mem -> list nat -> Prop :=
  | reached_start : reached [] []
  | reached_act : forall m held a m' held', reached m held -> allowed m held a ->
      act false choose m held a = Ok (m', held') -> reached m' held'.
End Runs.

(* Blocks of memory in use: living objects and buffers of strings. *)
Definition living (m : mem) : nat := length (filter s_live m).
Definition buffers (m : mem) : nat := length (filter s_buffer m).

(* Variables with a name that needs a buffer, living or not. *)
Definition long_names (m : mem) : nat :=
  length (filter (fun s => match s_body s with
                           | BTerm (CVariable name) _ _ _ _ _ _ _ => 15 <? String.length name
                           | _ => false end) m).

(* Object n of a class derived from Term was alive or did not exist in m and
   has come to its end in m'. *)
Definition ended (m m' : mem) (n : nat) : Prop :=
  (forall s, nth_error m n = Some s -> s_live s = true)
  /\ exists s, nth_error m' n = Some s /\ s_live s = false.
Definition derived (m : mem) (n : nat) : Prop := is_term m n /\ ~ has_class m n CPlain.

(* ---- what an action makes ---- *)
Definition has_body (m : mem) (n : nat) (b : body) : Prop := exists s, nth_error m n = Some s /\ s_body s = b.

(* Different objects that did not exist in m. *)
Definition new (m : mem) (l : list nat) : Prop := NoDup l /\ forall n, In n l -> length m <= n.

(* The list of independent variables of a term; the components of a list. *)
Definition ilist (m : mem) (t v : nat) : Prop := exists c f a b l y z, has_body m t (BTerm c f a b l v y z).
Definition joined (m : mem) (lists parts : list nat) : Prop :=
  exists sons, Forall2 (ilist m) parts sons /\ forall k, In k lists -> exists x i b, has_body m k (BIndex x i sons b).

(* What a list has collected from its components: nothing if the kind does
   not occur, and else all of their indices, in order. *)
Definition built_with (m : mem) (n : nat) (i : list nat) : Prop := exists x l, has_body m n (BIndex x i l true).
Definition collected (m : mem) (has : bool) (n : nat) : Prop :=
  exists x i l, has_body m n (BIndex x i l true)
    /\ if has then x <> None /\ exists is, Forall2 (built_with m) l is /\ i = concat is else i = [].
Definition lists_of (m : mem) (f : flags) (x y z : nat) (parts : list nat) : Prop :=
  joined m [x; y; z] parts /\ collected m (f_ivar f) x /\ collected m (f_dvar f) y /\ collected m (f_qvar f) z.
(* The copy of a list has as many indices, which are new. *)
Definition same_size (m m' : mem) (x x' : nat) : Prop :=
  forall n i l b, has_body m x (BIndex n i l b) -> b = true \/ l = [] ->
    exists n' i' b', has_body m' x' (BIndex n' i' [] b') /\ length i' = length i /\ new m i'.
Definition sizes (m m' : mem) (l l' : list nat) : Prop := Forall2 (same_size m m') l l'.

(* The flags of a term made of parts. *)
Definition any_of (m : mem) (g : flags -> bool) (parts : list nat) : Prop :=
  exists n c f a b l x y z, In n parts /\ has_body m n (BTerm c f a b l x y z) /\ g f = true.
Definition flags_of (m : mem) (parts : list nat) (f : flags) : Prop :=
  (f_var f = true <-> any_of m f_var parts) /\ (f_ivar f = true <-> any_of m f_ivar parts)
  /\ (f_dvar f = true <-> any_of m f_dvar parts) /\ (f_qvar f = true <-> any_of m f_qvar parts).

(* r in m' is a copy of n in m that shares with n what has no variables. *)
Inductive copied (m m' : mem) : nat -> nat -> Prop :=
  | copied_shared : forall n c f a b l x y z,
      has_body m n (BTerm c f a b l x y z) -> f_var f = false -> copied m m' n n
  | copied_variable : forall n r name f x y z x' y' z',
      has_body m n (BTerm (CVariable name) f None None None x y z) -> f_var f = true ->
      has_body m' r (BTerm (CVariable name) f None None None x' y' z') -> new m [x'; y'; z'; r] ->
      sizes m m' [x; y; z] [x'; y'; z'] -> copied m m' n r
  | copied_statement : forall n r f s p s' p' x y z x' y' z',
      has_body m n (BTerm CStatement f (Some s) (Some p) None x y z) -> f_var f = true ->
      has_body m' r (BTerm CStatement f (Some s') (Some p') None x' y' z') -> new m [x'; y'; z'; r] ->
      lists_of m' f x' y' z' [s'; p'] ->
      copied m m' s s' -> copied m m' p p' -> copied m m' n r
  | copied_compound : forall n r f t t' l l' pick x y z x' y' z',
      has_body m n (BTerm CCompound f None None (Some t) x y z) -> f_var f = true -> has_body m t (BTerms l) ->
      has_body m' r (BTerm CCompound f None None (Some t') x' y' z') -> new m [x'; y'; z'; t'; r] ->
      has_body m' t' (BTerms (picked pick l')) -> NoDup pick -> (forall i, In i pick -> i < length l') ->
      lists_of m' f x' y' z' (picked pick l') ->
      Forall2 (copied m m') l l' -> copied m m' n r.

Definition flags_of_kind (k : vkind) : flags :=
  match k with
  | Independent => Flags true true false false
  | Dependent => Flags true false true false
  | Query => Flags true false false true
  end.
(* A list with so many indices and no components. *)
Definition fresh_list (m : mem) (n : nat) (count : nat) : Prop :=
  exists i, has_body m n (BIndex None i [] false) /\ length i = count.

(* The parts of a new term: what was given, or copies of it. *)
Definition parts_of (is_input : bool) (m m' : mem) (l l' : list nat) : Prop :=
  if is_input then l' = l else Forall2 (copied m m') l l'.
(* Terms t' for Terms t. *)
Definition terms_of (same : bool) (m m' : mem) (t t' : nat) : Prop :=
  if same then t' = t
  else exists l l' pick, has_body m t (BTerms l) /\ Forall2 (copied m m') l l' /\ NoDup pick
       /\ (forall i, In i pick -> i < length l') /\ has_body m' t' (BTerms (picked pick l')) /\ new m [t'].

(* r is what action a is to make. *)
Definition makes (m m' : mem) (a : action) (r : nat) : Prop :=
  match a with
  | MakeSimple c =>
      exists x y z, has_body m' r (BTerm c (Flags false false false false) None None None x y z) /\ new m [x; y; z; r]
        /\ (forall k, In k [x; y; z] -> fresh_list m' k 0)
  | MakeVariable k name indexed =>
      exists x y z, has_body m' r (BTerm (CVariable name) (flags_of_kind k) None None None x y z) /\ new m [x; y; z; r]
        /\ fresh_list m' x (match k, indexed with Independent, true => 1 | _, _ => 0 end)
        /\ fresh_list m' y (match k, indexed with Dependent, true => 1 | _, _ => 0 end)
        /\ fresh_list m' z (match k, indexed with Query, true => 1 | _, _ => 0 end)
  | MakeTerms l =>
      exists pick, NoDup pick /\ (forall i, In i pick -> i < length l) /\ has_body m' r (BTerms (picked pick l)) /\ new m [r]
  | MakeStatement s p is_input =>
      exists f s' p' x y z, has_body m' r (BTerm CStatement f (Some s') (Some p') None x y z) /\ new m [x; y; z; r]
        /\ parts_of is_input m m' [s; p] [s'; p'] /\ flags_of m' [s'; p'] f /\ lists_of m' f x y z [s'; p']
  | MakeCompound t is_input =>
      exists f t' l x y z, has_body m' r (BTerm CCompound f None None (Some t') x y z) /\ new m [x; y; z; r]
        /\ terms_of is_input m m' t t' /\ has_body m' t' (BTerms l) /\ flags_of m' l f /\ lists_of m' f x y z l
  | Clone n => copied m m' n r
  | Duplicate n false => exists b, has_body m n b /\ has_body m' r b /\ new m [r]
  | Duplicate n true =>
      (exists name f x y z x' y' z', has_body m n (BTerm (CVariable name) f None None None x y z)
         /\ has_body m' r (BTerm (CVariable name) f None None None x' y' z') /\ new m [x'; y'; z'; r]
         /\ sizes m m' [x; y; z] [x'; y'; z'])
      \/ (exists f s p s' p' x y z x' y' z', has_body m n (BTerm CStatement f (Some s) (Some p) None x y z)
         /\ has_body m' r (BTerm CStatement f (Some s') (Some p') None x' y' z') /\ new m [x'; y'; z'; r]
         /\ Forall2 (copied m m') [s; p] [s'; p'] /\ lists_of m' f x' y' z' [s'; p'])
      \/ (exists f t t' l x y z x' y' z', has_body m n (BTerm CCompound f None None (Some t) x y z)
         /\ has_body m' r (BTerm CCompound f None None (Some t') x' y' z') /\ new m [x'; y'; z'; r]
         /\ terms_of (negb (f_var f)) m m' t t' /\ has_body m' t' (BTerms l) /\ lists_of m' f x' y' z' l)
  | Take _ q => r = q
  | Copy n => r = n
  | Drop _ => True
  end.
(* What the program holds after an action that gave it r. *)
Definition holds (a : action) (held held' : list nat) (r : nat) : Prop :=
  match a with
  | Drop n => exists l1 l2, held = l1 ++ n :: l2 /\ held' = l1 ++ l2
  | _ => held' = r :: held
  end.

(* ---- terms as they are at any time ---- *)
(* A list without components that has at most so many indices. *)
Definition bare_list (m : mem) (n : nat) (most : nat) : Prop :=
  exists x i b, has_body m n (BIndex x i [] b) /\ length i <= most.
(* What is said of every term object: its parts, its flags and its lists. *)
Definition well_made (m : mem) (c : tclass) (f : flags) (a b t : option nat) (x y z : nat) : Prop :=
  match c with
  | CPlain | COperation | CInterval =>
      f = Flags false false false false /\ a = None /\ b = None /\ t = None /\ (forall k, In k [x; y; z] -> bare_list m k 0)
  | CVariable _ =>
      a = None /\ b = None /\ t = None
      /\ exists k, f = flags_of_kind k /\ bare_list m x (match k with Independent => 1 | _ => 0 end)
           /\ bare_list m y (match k with Dependent => 1 | _ => 0 end) /\ bare_list m z (match k with Query => 1 | _ => 0 end)
  | CStatement =>
      exists s p, a = Some s /\ b = Some p /\ t = None /\ flags_of m [s; p] f /\ lists_of m f x y z [s; p]
  | CCompound =>
      exists t' l, a = None /\ b = None /\ t = Some t' /\ has_body m t' (BTerms l) /\ lists_of m f x y z l
        /\ (any_of m f_var l -> f_var f = true) /\ (any_of m f_ivar l -> f_ivar f = true)
        /\ (any_of m f_dvar l -> f_dvar f = true) /\ (any_of m f_qvar l -> f_qvar f = true)
  end.

(* v is a variable that the term n is made of, or is n itself. *)
Inductive inside (m : mem) : nat -> nat -> Prop :=
  | inside_self : forall v name f a b t x y z, has_body m v (BTerm (CVariable name) f a b t x y z) -> inside m v v
  | inside_subject : forall n v c f s b t x y z, has_body m n (BTerm c f (Some s) b t x y z) -> inside m s v -> inside m n v
  | inside_predicate : forall n v c f a p t x y z, has_body m n (BTerm c f a (Some p) t x y z) -> inside m p v -> inside m n v
  | inside_component : forall n v c f a b t l k x y z, has_body m n (BTerm c f a b (Some t) x y z) ->
      has_body m t (BTerms l) -> In k l -> inside m k v -> inside m n v.
(* The actions that copy the parts of what they make. *)
Definition copying (a : action) : Prop :=
  match a with
  | MakeStatement _ _ false | MakeCompound _ false | Clone _ | Duplicate _ true => True
  | _ => False
  end.
