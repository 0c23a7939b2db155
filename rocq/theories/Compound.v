(* Model of Narsese/src/Compound.cpp l.29-331. *)
From Coq Require Import ZArith List Bool.
From Verif Require Import Base Hash Enums Term Terms.
Import ListNotations.

(* The component sequence of a compound (Compound.h l.53). *)
Definition components (t : term) : list term :=
  match t with Comp _ l => l | _ => [] end.

Definition has_connector (c : connector) (t : term) : bool :=
  match t with Comp c' _ => con_eqb c' c | _ => false end.

(* Compound.cpp l.29-106, _merge_compounds.  [compounds] all have connector
   [con], which is commutative (l.161-163), so their Terms are commutative.
   [Ok None] is the returned nullptr. *)
Definition merge_compounds (parent con : connector) (compounds : list term)
  : res (option (list term)) :=
  let all := map (fun t => Terms (is_commutative con) (components t)) compounds in
  let some r := bind r (fun s => Ok (Some s)) in
  match parent with
  | ExtensionalIntersection =>
      match con with
      | ExtensionalSet => some (terms_intersection all)
      | IntensionalSet => some (terms_union all)
      | _ => Ok None
      end
  | IntensionalIntersection =>
      match con with
      | ExtensionalSet => some (terms_union all)
      | IntensionalSet => some (terms_intersection all)
      | _ => Ok None
      end
  | _ =>
      if con_eqb parent ExtensionalDifference && con_eqb con ExtensionalSet
      then some (terms_difference all)
      else if con_eqb parent IntensionalDifference && con_eqb con IntensionalSet
      then some (terms_difference all)
      else if con_eqb parent con
      then Ok (Some (mk_terms (is_commutative con) (flat_map components compounds)))
      else Ok None
  end.

(* Keys of the `categories` map (Compound.cpp l.142): a connector or None. *)
Definition okey_eqb (a b : option connector) : bool :=
  match a, b with
  | None, None => true
  | Some x, Some y => con_eqb x y
  | _, _ => false
  end.

(* Compound.cpp l.160-166: the category of a term. *)
Definition category (t : term) : option connector :=
  match t with
  | Comp c _ => if is_commutative c then Some c else None
  | _ => None
  end.

(* Compound.cpp l.167-170: append to the vector of the category. *)
Fixpoint cat_add (k : option connector) (t : term)
    (m : list (option connector * list term)) : list (option connector * list term) :=
  match m with
  | [] => [(k, [t])]
  | (k', l) :: m' => if okey_eqb k k' then (k', l ++ [t]) :: m' else (k', l) :: cat_add k t m'
  end.

(* Compound.cpp l.158-171: the map, keys in order of first insertion. *)
Definition categories (l : list term) : list (option connector * list term) :=
  fold_left (fun m t => cat_add (category t) t m) l [].

(* Compound.cpp l.175-203, Step 2, for one entry of the map. *)
Definition norm_entry (parent : connector) (e : option connector * list term)
  : res (list (option connector * list term)) :=
  let '(k, compounds) := e in
  match k with
  | None => Ok (map (fun t => (None, terms_set [t])) compounds)
  | Some con =>
      bind (merge_compounds parent con compounds) (fun m =>
        match m with
        | None => Ok (map (fun t => (Some con, components t)) compounds)
        | Some s => Ok [(Some con, s)]
        end)
  end.

(* Compound.cpp l.174-203, Step 2: the loop over the map. *)
Fixpoint norm_all (parent : connector) (m : list (option connector * list term))
  : res (list (option connector * list term)) :=
  match m with
  | [] => Ok []
  | e :: m' =>
      bind (norm_entry parent e) (fun a => bind (norm_all parent m') (fun b => Ok (a ++ b)))
  end.

(* Compound.cpp l.147-156: one-level flattening of same-connector components
   into a new commutative Terms. *)
Definition flatten_set (parent : connector) (l : list term) : list term :=
  terms_set (flat_map (fun t => if has_connector parent t then components t else [t]) l).

(* Compound.cpp l.242-263, Step 4; *terms_norm.begin() of an empty vector is
   undefined behaviour. *)
Definition step4 (parent : connector) (norm : list (option connector * list term))
  : res (connector * list term) :=
  match norm with
  | [] => UB
  | (k, ts) :: _ =>
      match k, parent with
      | Some ExtensionalSet, IntensionalIntersection => Ok (ExtensionalSet, terms_set ts)
      | Some IntensionalSet, ExtensionalIntersection => Ok (IntensionalSet, terms_set ts)
      | _, _ => Ok (parent, terms_set ts)
      end
  end.

(* Compound.cpp l.226-239: the collected vector does not have more than one
   element; *begin() of an empty vector is undefined behaviour. *)
Definition single (all : list term) : res (list (option connector * list term)) :=
  match all with
  | [] => UB
  | t :: _ =>
      match t with
      | Comp c l => Ok [(Some c, l)]
      | _ => Ok [(None, terms_set all)]
      end
  end.

(* Compound.cpp l.265-287: the non-commutative reducible case (&/). *)
Definition expand_seq (parent : connector) (l : list term) : list term :=
  flat_map (fun t => if has_connector parent t then components t else [t]) l.

Section Build.

(* The iteration order of std::unordered_map `categories` (l.175) as a function
   of the insertion-ordered association list; theorems assume only that it
   returns a permutation. *)
Variable ord : list (option connector * list term) -> list (option connector * list term).

(* Compound.cpp l.206-221, Step 3: the loop collecting _terms_all; [mk] is
   Compound::create(_connector, _terms). *)
Fixpoint collect (mk : connector -> list term -> res term) (parent : connector)
    (norm : list (option connector * list term)) : res (list term) :=
  match norm with
  | [] => Ok []
  | (k, ts) :: norm' =>
      bind (match k with
            | None => Ok ts
            | Some c =>
                if con_eqb c parent then Ok ts
                else if check_valid c (Z.of_nat (length ts))
                then bind (mk c ts) (fun t => Ok [t])
                else Ok []
            end)
        (fun a => bind (collect mk parent norm') (fun b => Ok (a ++ b)))
  end.

(* Compound.cpp l.123-290, prepocess_terms.  [ts] is the iteration sequence of
   the argument `terms`. *)
Definition preprocess (mk : connector -> list term -> res term)
    (parent : connector) (ts : list term) : res (connector * list term) :=
  if negb (is_reducible parent) then Ok (parent, ts)
  else if is_commutative parent then
    bind (norm_all parent (ord (categories (flatten_set parent ts)))) (fun norm =>
      if Nat.ltb 1 (length norm) then
        bind (collect mk parent norm) (fun all =>
          if Nat.ltb 1 (length all) then Ok (parent, terms_set all)
          else bind (single all) (step4 parent))
      else step4 parent norm)
  else Ok (parent, expand_seq parent ts).

(* Compound.cpp l.292-319, the constructor from a pTerms.  With is_input the
   components are shared, otherwise they are cloned (equal values) into a new
   Terms.  [fuel] bounds the recursion through Compound::create in Step 3;
   [fuel_for] below is proved to be enough. *)
Fixpoint compound_fuel (fuel : nat) (is_input : bool) (con : connector) (ts : list term)
  : res term :=
  match fuel with
  | O => OutOfFuel
  | S fuel' =>
      bind (preprocess (compound_fuel fuel' false) con ts) (fun r =>
        let '(c, l) := r in
        Ok (Comp c (if is_input then l else mk_terms (is_commutative c) l)))
  end.

End Build.

(* Nesting depth of a term; bounds the recursion of the constructor. *)
Fixpoint depth (t : term) : nat :=
  match t with
  | Stmt _ s p => S (Nat.max (depth s) (depth p))
  | Comp _ l => S (list_max (map depth l))
  | _ => 0
  end.
Definition fuel_for (ts : list term) : nat := S (S (list_max (map depth ts))).

(* Compound.cpp l.292-319 for a pTerms argument. *)
Definition compound_of_terms ord (is_input : bool) (con : connector) (ts : list term) : res term :=
  compound_fuel ord (fuel_for ts) is_input con ts.

(* Compound.cpp l.321-331: the constructors from list/vector/initializer_list
   first make a Terms with the flag of the connector. *)
Definition compound ord (is_input : bool) (con : connector) (l : list term) : res term :=
  compound_of_terms ord is_input con (mk_terms (is_commutative con) l).
