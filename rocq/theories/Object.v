(* Model of term objects with identity and of Term::clone:
   Term.inl l.16-42 and l.182-219, Term.h l.83-200, Variable.inl,
   Statement.inl, Compound.inl, the end of Compound.cpp's constructor. *)
From Coq Require Import ZArith List Bool.
From Verif Require Import Base Hash Enums Term Terms IndexVar.
Import ListNotations.

(* Term.h l.83-120: the stored fields of a Term object.  [h_id] is its
   address; is_hashed is always set after construction and is left out. *)
Record header : Type := Hdr {
  h_id : Z;
  h_hash : Z;
  h_complexity : Z;
  h_has_var : bool;
  h_has_ivar : bool;
  h_has_dvar : bool;
  h_has_qvar : bool;
  h_is_operation : bool;
  h_is_higher_order : bool;
  h_ivs : nat * nat * nat
}.

(* A term object together with the objects it points to; the same object
   reached twice appears twice, with the same [h_id] (term objects are not
   changed after construction except through their index lists, which live in
   the heap). *)
Inductive obj : Type :=
| OAtom (d : header) (op : bool)
| OVar (d : header) (k : vkind)
| OItv (d : header) (n : Z)
| OStmt (d : header) (c : copula) (s p : obj)
| OComp (d : header) (c : connector) (l : list obj).

Definition hdr (o : obj) : header :=
  match o with
  | OAtom d _ | OVar d _ | OItv d _ | OStmt d _ _ _ | OComp d _ _ => d
  end.

Definition iv_ind (d : header) : nat := fst (fst (h_ivs d)).
Definition iv_dep (d : header) : nat := snd (fst (h_ivs d)).
Definition iv_qry (d : header) : nat := snd (h_ivs d).
Definition iv_of (k : vkind) (d : header) : nat :=
  match k with
  | Independent => iv_ind d
  | Dependent => iv_dep d
  | Query => iv_qry d
  end.

(* The term an object denotes: the index of a variable is read from the first
   cell of the index list of its kind, as in Term.inl l.69-76 and l.139-143. *)
Fixpoint denote (h : heap) (o : obj) : term :=
  match o with
  | OAtom d op => Atom op (h_id d)
  | OVar d k => Var k (cell h (hd O (iv_indices (node h (iv_of k d)))))
  | OItv d n => Itv n
  | OStmt d c s p => Stmt c (denote h s) (denote h p)
  | OComp d c l => Comp c (map (denote h) l)
  end.

(* Allocation of a Term: a new address and three new index lists
   (Term.h l.118-120). *)
Definition new_term (h : heap) : heap * Z * (nat * nat * nat) :=
  let id := next_id h in
  let h0 := Heap (cells h) (nodes h) (id + 1) in
  let '(h1, a) := new_iv h0 in
  let '(h2, b) := new_iv h1 in
  let '(h3, c) := new_iv h2 in
  (h3, id, (a, b, c)).

(* Term.h l.125 and Operation.h l.17-26 *)
Definition new_atom (h : heap) (op : bool) : heap * obj :=
  let '(h1, id, ivs) := new_term h in
  (h1, OAtom (Hdr id (hash_container [0%Z; size_t id]) 1 false false false false op false ivs) op).

(* Interval.h l.20-45 *)
Definition new_itv (h : heap) (n : Z) : heap * obj :=
  let '(h1, id, ivs) := new_term h in
  (h1, OItv (Hdr id (hash_container [size_t (-1); size_t n]) 1 false false false false false false ivs) n).

(* Variable.inl l.34-61 followed by add(idx, {}) to the index list of the kind
   (NarseseParser.cpp l.724-729, 740-745, 756-761). *)
Definition new_var (h : heap) (k : vkind) (idx : Z) : heap * obj :=
  let '(h1, id, ivs) := new_term h in
  let d := Hdr id (hash_container [size_t (-3); vk_code k]) 1 true
             (vk_eqb k Independent) (vk_eqb k Dependent) (vk_eqb k Query) false false ivs in
  (add_here h1 (iv_of k d) idx, OVar d k).

(* Term.inl l.16-42: for every term and every one of the three own index
   lists; the iterator into the term's lists is never advanced (l.21-25,
   l.35-39), so always the independent list of the term is connected. *)
Definition init_indexvars (h : heap) (ivs : nat * nat * nat) (terms : list obj) : heap :=
  fold_left (fun h t =>
    let son := iv_ind (hdr t) in
    connect (connect (connect h (fst (fst ivs)) son) (snd (fst ivs)) son) (snd ivs) son)
    terms h.

(* Term.h l.180-194: one of the three branches. *)
Definition build_one (h : heap) (has : bool) (n : nat) : res heap :=
  if has then build (S (length (nodes h))) h n else Ok (mark_built h n).

(* Term.h l.180-194, _build_indexvars.  The fuel always suffices
   (ObjectFacts): the lists of the components are built already. *)
Definition build_indexvars (h : heap) (d : header) : res heap :=
  bind (build_one h (h_has_ivar d) (iv_ind d)) (fun h1 =>
  bind (build_one h1 (h_has_dvar d) (iv_dep d)) (fun h2 =>
        build_one h2 (h_has_qvar d) (iv_qry d))).

(* std::set<pTerm>::insert on objects, cf. Terms.sinsert: the comparison looks
   at what the objects denote. *)
Fixpoint oinsert (h : heap) (x : obj) (s : list obj) : list obj :=
  match s with
  | [] => [x]
  | y :: s' =>
      if tlt (denote h x) (denote h y) then x :: s
      else if tlt (denote h y) (denote h x) then y :: oinsert h x s'
      else s
  end.

(* Term.h l.439-445: push_back into an initially empty Terms, one by one. *)
Definition push_all (h : heap) (comm : bool) (l : list obj) : list obj :=
  if comm then fold_left (fun s x => oinsert h x s) l [] else l.

(* Variable.inl l.17-32: the copy constructor. *)
Definition copy_var (h : heap) (d : header) (k : vkind) : heap * obj :=
  let id := next_id h in
  let h0 := Heap (cells h) (nodes h) (id + 1) in
  let '(h1, a) := clone_iv h0 (iv_ind d) in
  let '(h2, b) := clone_iv h1 (iv_dep d) in
  let '(h3, c) := clone_iv h2 (iv_qry d) in
  (h3, OVar (Hdr id (h_hash d) 1 (h_has_var d) (h_has_ivar d) (h_has_dvar d)
                 (h_has_qvar d) false false (a, b, c)) k).

(* The fields copied one by one in Statement.inl l.51-68 and
   Compound.inl l.29-46. *)
Definition copy_header (d : header) (id : Z) (ivs : nat * nat * nat) : header :=
  Hdr id (h_hash d) (h_complexity d) (h_has_var d) (h_has_ivar d) (h_has_dvar d)
      (h_has_qvar d) (h_is_operation d) (h_is_higher_order d) ivs.

(* Clone every element of a component list in turn. *)
Definition map_heap (f : heap -> obj -> res (heap * obj)) :
    heap -> list obj -> res (heap * list obj) :=
  fix go (h : heap) (l : list obj) : res (heap * list obj) :=
    match l with
    | [] => Ok (h, [])
    | x :: l' =>
        bind (f h x) (fun r =>
        bind (go (fst r) l') (fun r' => Ok (fst r', snd r :: snd r')))
    end.

(* Term.inl l.182-219, Term::clone, with the deep copy constructors
   Statement.inl l.38-76 and Compound.inl l.12-62. *)
Fixpoint clone (h : heap) (o : obj) {struct o} : res (heap * obj) :=
  if h_has_var (hdr o) then
    match o with
    | OAtom _ _ | OItv _ _ => Throw
    | OVar d k => Ok (copy_var h d k)
    | OStmt d c s p =>
        let '(h0, id, ivs) := new_term h in
        let d' := copy_header d id ivs in
        bind (clone h0 s) (fun r1 =>
        bind (clone (fst r1) p) (fun r2 =>
        bind (build_indexvars (init_indexvars (fst r2) ivs [snd r1; snd r2]) d') (fun h3 =>
        Ok (h3, OStmt d' c (snd r1) (snd r2)))))
    | OComp d c l =>
        let '(h0, id, ivs) := new_term h in
        let d' := copy_header d id ivs in
        bind (map_heap clone h0 l) (fun r =>
        let l' := push_all (fst r) (is_commutative c) (snd r) in
        bind (build_indexvars (init_indexvars (fst r) ivs l') d') (fun h2 =>
        Ok (h2, OComp d' c l')))
    end
  else Ok (h, o).

(* Statement.inl l.10-36.  [is_input] false clones the two parts. *)
Definition new_stmt (h : heap) (c : copula) (s p : obj) (is_input : bool) : res (heap * obj) :=
  let '(h0, id, ivs) := new_term h in
  bind (if is_input then Ok (h0, s) else clone h0 s) (fun r1 =>
  bind (if is_input then Ok (fst r1, p) else clone (fst r1) p) (fun r2 =>
  let s' := snd r1 in let p' := snd r2 in
  let d := Hdr id
    (hash_container [1; 60; h_hash (hdr s'); cop_code c; h_hash (hdr p'); 60; 40; 41; 40; 41; 40; 41]%Z)
    (1 + (h_complexity (hdr s') + h_complexity (hdr p')))
    (h_has_var (hdr s') || h_has_var (hdr p'))
    (h_has_ivar (hdr s') || h_has_ivar (hdr p'))
    (h_has_dvar (hdr s') || h_has_dvar (hdr p'))
    (h_has_qvar (hdr s') || h_has_qvar (hdr p'))
    (h_is_operation (hdr p)) (cop_higher_order c) ivs in
  bind (build_indexvars (init_indexvars (fst r2) ivs [s'; p']) d) (fun h3 =>
  Ok (h3, OStmt d c s' p')))).

(* Compound.cpp l.292-319 after prepocess_terms, whose results (l.299) are the
   connector [c] and the list [l]. *)
Definition new_comp (h : heap) (c : connector) (l : list obj) (is_input : bool) : res (heap * obj) :=
  let '(h0, id, ivs) := new_term h in
  bind (if is_input then Ok (h0, l)
        else bind (map_heap clone h0 l) (fun r =>
               Ok (fst r, push_all (fst r) (is_commutative c) (snd r)))) (fun r =>
  let l' := snd r in
  let d := Hdr id
    (hash_container ([2; 40; con_code c] ++ map (fun o => h_hash (hdr o)) l' ++ [41; 40; 41; 40; 41; 40; 41])%Z)
    (fold_left (fun sum x => sum + x)%Z (map (fun o => h_complexity (hdr o)) l') 0%Z)
    (existsb (fun o => h_has_var (hdr o)) l')
    (existsb (fun o => h_has_ivar (hdr o)) l')
    (existsb (fun o => h_has_dvar (hdr o)) l')
    (existsb (fun o => h_has_qvar (hdr o)) l')
    false false ivs in
  bind (build_indexvars (init_indexvars (fst r) ivs l') d) (fun h2 =>
  Ok (h2, OComp d c l'))).

(* What a program does with terms: a pool of objects it holds. *)
Inductive op : Type :=
| NewAtom (isop : bool)
| NewItv (n : Z)
| NewVar (k : vkind) (idx : Z)
| NewStmt (c : copula) (s p : obj) (is_input : bool)
| NewComp (c : connector) (l : list obj) (is_input : bool)
| Clone (o : obj).

Definition step (h : heap) (x : op) : res (heap * obj) :=
  match x with
  | NewAtom b => Ok (new_atom h b)
  | NewItv n => Ok (new_itv h n)
  | NewVar k i => Ok (new_var h k i)
  | NewStmt c s p b => new_stmt h c s p b
  | NewComp c l b => new_comp h c l b
  | Clone o => clone h o
  end.

(* The objects an operation uses. *)
Definition uses (x : op) : list obj :=
  match x with
  | NewStmt _ s p _ => [s; p]
  | NewComp _ l _ => l
  | Clone o => [o]
  | _ => []
  end.

(* The components of an object, as reached through subject, predicate, terms. *)
Definition parts (o : obj) : list obj :=
  match o with
  | OStmt _ _ s p => [s; p]
  | OComp _ _ l => l
  | _ => []
  end.

(* The empty memory before any term is created. *)
Definition heap0 : heap := Heap [] [] 0.

(* [made h pool]: some run of operations, each on objects already held, leads
   to memory [h] and the objects [pool].  The addresses of new objects grow,
   with arbitrary gaps (memory is not reused). *)
Inductive made : heap -> list obj -> Prop :=
| made_start : made heap0 []
| made_step h pool x h' o :
    made h pool -> incl (uses x) pool -> step h x = Ok (h', o) -> made h' (o :: pool)
| made_gap h pool n :
    made h pool -> (next_id h <= n)%Z -> made (Heap (cells h) (nodes h) n) pool
| made_part h pool o o' :
    made h pool -> In o pool -> In o' (parts o) -> made h (o' :: pool).
