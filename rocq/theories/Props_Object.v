(* Properties of term objects, their index lists and clones: C21-C24, C78-C82. *)
From Coq Require Import ZArith List Bool Lia.
From Verif Require Import Base Hash Enums Term TermSpec CompoundSpec Compound
  IndexVar IndexVarFacts Object ObjectSpec ObjectFacts2 ObjectFacts4 ObjectFacts5 CompoundCases ObjectCases.
Import ListNotations.

(* ---- C21 ---- *)
Theorem C21_independent_lists : forall h pool o, made h pool -> In o pool ->
  let n := node h (iv_ind (hdr o)) in
  values h (iv_indices n) = indices_in Independent (denote h o)
  /\ map (follow (denote h o)) (iv_positions n)
     = map (fun i => Some (Var Independent i)) (values h (iv_indices n)).
Proof. exact made_independent. Qed.
Print Assumptions C21_independent_lists.

(* <(&&, <$3 --> a>, <$5 --> $3>) ==> <$5 --> b>> *)
Example C21_case : exists h pool o, made h pool /\ In o pool /\
  indices_in Independent (denote h o) = [3; 5; 3; 5]%Z
  /\ iv_positions (node h (iv_ind (hdr o))) = [[0; 0; 0]; [0; 1; 0]; [0; 1; 1]; [1; 0]]%Z
  /\ variable_inside o.
Proof. exact big_indices. Qed.

(* ---- C22 ---- *)
Theorem C22_dependent_lists_refuted :
  ~ (forall h pool o k, made h pool -> In o pool -> k <> Independent ->
      values h (iv_indices (node h (iv_of k (hdr o)))) = indices_in k (denote h o)).
Proof. exact dependent_lists_wrong. Qed.
Print Assumptions C22_dependent_lists_refuted.

Theorem C22_query_lists_refuted :
  ~ (forall h pool o, made h pool -> In o pool ->
      values h (iv_indices (node h (iv_of Query (hdr o)))) = indices_in Query (denote h o)).
Proof. exact query_lists_wrong. Qed.
Print Assumptions C22_query_lists_refuted.

(* What is missing: the lists hold the indices of the independent variables
   instead of those of the dependent and query variables. *)
Theorem C22_lists_partial : forall h pool o, made h pool -> In o pool -> parts o <> [] ->
  values h (iv_indices (node h (iv_dep (hdr o))))
    = (if h_has_dvar (hdr o) then indices_in Independent (denote h o) else [])
  /\ values h (iv_indices (node h (iv_qry (hdr o))))
    = (if h_has_qvar (hdr o) then indices_in Independent (denote h o) else []).
Proof. exact made_others. Qed.
Print Assumptions C22_lists_partial.

(* The product of #4, $3 and ?2 *)
Example C22_case : exists h pool o, made h pool /\ In o pool /\ parts o <> [] /\
  h_has_dvar (hdr o) = true /\ h_has_qvar (hdr o) = true /\
  indices_in Independent (denote h o) = [3]%Z /\ indices_in Dependent (denote h o) = [4]%Z.
Proof. exact mixed_lists. Qed.

(* ---- C23 ---- *)
Local Open Scope Z_scope.
Theorem C23_order : forall l i j, (i < length l)%nat -> (j < length l)%nat ->
  (nth i (normalize l) 0 < nth j (normalize l) 0 <-> nth i l 0 < nth j l 0).
Proof. exact normalize_order. Qed.
Print Assumptions C23_order.

Theorem C23_length : forall l, length (normalize l) = length l.
Proof. exact normalize_length. Qed.
Print Assumptions C23_length.

Theorem C23_dense : forall l v,
  In v (normalize l) <-> 0 <= v < Z.of_nat (length (nodup Z.eq_dec l)).
Proof. exact normalize_values. Qed.
Print Assumptions C23_dense.

Theorem C23_renaming : forall (f : Z -> Z) l,
  (forall x y, In x l -> In y l -> x < y -> f x < f y) -> normalize (map f l) = normalize l.
Proof. exact normalize_map. Qed.
Print Assumptions C23_renaming.

Theorem C23_idempotent : forall l, normalize (normalize l) = normalize l.
Proof. exact normalize_idem. Qed.
Print Assumptions C23_idempotent.

Example C23_case : normalize [7; -2; 7; 40] = [1; 0; 1; 2]
  /\ map (fun x => 3 * x + 1) [7; -2; 7; 40] = [22; -5; 22; 121].
Proof. split; vm_compute; reflexivity. Qed.
Local Close Scope Z_scope.

(* ---- C24 ---- *)
Theorem C24_clone_refuted :
  ~ (forall h pool o h' o', made h pool -> In o pool -> step h (Clone o) = Ok (h', o') ->
      denote h' o' = denote h o).
Proof. exact clone_not_equal. Qed.
Print Assumptions C24_clone_refuted.

(* The witness has its components in the order the library's constructor
   leaves them in, and is not == to its clone. *)
Theorem C24_clone_unequal_refuted : exists h pool o h' o', made h pool /\ In o pool /\
  compound id_order true Conjunction
    [Stmt Inheritance (Var Independent 0) (Var Independent 1);
     Stmt Inheritance (Var Independent 1) (Var Independent 0)] = Ok (denote h o)
  /\ step h (Clone o) = Ok (h', o')
  /\ teq (denote h' o') (denote h o) = Ok false.
Proof. exact clone_flips. Qed.
Print Assumptions C24_clone_unequal_refuted.

(* What is missing: terms with a compound whose components are not in the order
   of the library; C78 has the rest of what cloning does. *)
Theorem C24_clone_partial : forall h pool o h' o',
  made h pool -> In o pool -> step h (Clone o) = Ok (h', o') ->
  well_ordered (denote h o) -> denote h' o' = denote h o.
Proof. exact (fun h pool o h' o' M I E => proj1 (proj2 (made_clone h pool o h' o' M I E))). Qed.
Print Assumptions C24_clone_partial.

Example C24_case : exists h pool o h' o', made h pool /\ In o pool /\
  step h (Clone o) = Ok (h', o') /\ (forall q, In q pool -> well_ordered (denote h q)) /\ variable_inside o
  /\ exists c, cell_of h' o' c.
Proof. exact big_clone. Qed.

(* ---- C78 ---- *)
Theorem C78_clone : forall h pool o h' o',
  made h pool -> In o pool -> step h (Clone o) = Ok (h', o') ->
  same_fields (hdr o) (hdr o')
  /\ (well_ordered (denote h o) -> denote h' o' = denote h o)
  /\ denote h' o = denote h o
  /\ (~ variable_inside o -> o' = o /\ h' = h)
  /\ (forall x, reach o' x -> variable_inside x -> ~ reach o x /\
        forall y q, In q pool -> reach q y -> h_id (hdr x) <> h_id (hdr y))
  /\ (forall x, reach o' x -> ~ variable_inside x -> reach o x)
  /\ (forall c v, cell_of h' o' c -> forall q, In q pool -> denote (set_cell h' c v) q = denote h q)
  /\ (forall c v q, In q pool -> cell_of h' q c -> denote (set_cell h' c v) o' = denote h' o').
Proof. exact made_clone. Qed.
Print Assumptions C78_clone.

Example C78_case : exists h pool o h' o', made h pool /\ In o pool /\
  step h (Clone o) = Ok (h', o') /\ (forall q, In q pool -> well_ordered (denote h q)) /\ variable_inside o
  /\ exists c, cell_of h' o' c.
Proof. exact big_clone. Qed.

(* ---- C79 ---- *)
Theorem C79_total : forall h pool x, made h pool -> incl (uses x) pool ->
  exists h' o', step h x = Ok (h', o').
Proof. exact made_total. Qed.
Print Assumptions C79_total.

(* <$3 --> a>-like parts of the statement of C21_case *)
Example C79_case : exists h pool s p, made h pool /\ incl (uses (NewStmt Implication s p false)) pool
  /\ variable_inside s /\ variable_inside p.
Proof.
  destruct parts_ready as (h & pool & s & p & M & S1 & S2 & _ & _ & V1 & V2 & _).
  exists h, pool, s, p. split; [exact M|]. split; [intros x [<-|[<-|[]]]; assumption | split; assumption].
Qed.

(* ---- C80 ---- *)
Theorem C80_fields : forall h pool, made h pool ->
  (forall o, In o pool -> well_ordered (denote h o)) -> forall o, In o pool -> fields_match h o.
Proof. exact made_match. Qed.
Print Assumptions C80_fields.

Example C80_case : exists h pool o h' o', made h pool /\ In o pool /\
  step h (Clone o) = Ok (h', o') /\ (forall q, In q pool -> well_ordered (denote h q)) /\ variable_inside o
  /\ exists c, cell_of h' o' c.
Proof. exact big_clone. Qed.

(* ---- C81 ---- *)
Theorem C81_statement : forall h pool c s p b h' o', made h pool -> In s pool -> In p pool ->
  (b = true \/ well_ordered (denote h s) /\ well_ordered (denote h p)) ->
  step h (NewStmt c s p b) = Ok (h', o') -> denote h' o' = Stmt c (denote h s) (denote h p).
Proof. exact made_new_stmt. Qed.
Print Assumptions C81_statement.

Theorem C81_compound : forall h pool c l h' o', made h pool -> incl l pool ->
  step h (NewComp c l true) = Ok (h', o') -> denote h' o' = Comp c (map (denote h) l).
Proof. exact made_new_comp. Qed.
Print Assumptions C81_compound.

Example C81_case : exists h pool s p, made h pool /\ In s pool /\ In p pool /\
  well_ordered (denote h s) /\ well_ordered (denote h p) /\ variable_inside s /\ variable_inside p /\
  (exists h' o', step h (NewStmt Implication s p false) = Ok (h', o')) /\
  (exists h' o', step h (NewComp Conjunction [s; p] true) = Ok (h', o')).
Proof. exact parts_ready. Qed.

(* ---- C82 ---- *)
Theorem C82_stable : forall h pool x h' o', made h pool -> incl (uses x) pool ->
  step h x = Ok (h', o') -> forall o, In o pool -> denote h' o = denote h o.
Proof. exact made_stable. Qed.
Print Assumptions C82_stable.

(* Hypotheses: as in C80_case, a clone that writes index lists. *)
Example C82_case : exists h pool o h' o', made h pool /\ incl (uses (Clone o)) pool /\
  step h (Clone o) = Ok (h', o') /\ variable_inside o.
Proof.
  destruct big_clone as (h & pool & o & h' & o' & M & I1 & E & _ & V & _).
  exists h, pool, o, h', o'. split; [exact M|]. split; [intros x [<-|[]]; exact I1 | split; assumption].
Qed.
