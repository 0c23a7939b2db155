(* Specification vocabulary for index lists and cloning. *)
From Coq Require Import ZArith List Bool.
From Verif Require Import Base Hash Enums Term TermSpec CompoundSpec Terms IndexVar Object.
Import ListNotations.

(* The indices of the variables of kind k in t, left to right. *)
Definition index_of (k : vkind) (t : term) : list Z :=
  match t with
  | Var k' i =>
      match k, k' with
      | Independent, Independent | Dependent, Dependent | Query, Query => [i]
      | _, _ => []
      end
  | _ => []
  end.
Definition indices_in (k : vkind) (t : term) : list Z := flat_map (index_of k) (leaves t).

(* The subterm at the end of a path: 0 and 1 select subject and predicate, n
   the n-th component (from 0). *)
Fixpoint follow (t : term) (path : list Z) : option term :=
  match path with
  | [] => Some t
  | n :: path' =>
      match t with
      | Stmt _ s p =>
          if Z.eqb n 0 then follow s path'
          else if Z.eqb n 1 then follow p path' else None
      | Comp _ l =>
          if (n <? 0)%Z then None
          else match nth_error l (Z.to_nat n) with
               | Some x => follow x path'
               | None => None
               end
      | _ => None
      end
  end.

(* [reach o x]: the object x is o or is reached from o through subjects,
   predicates and components. *)
Inductive reach : obj -> obj -> Prop :=
| reach_self o : reach o o
| reach_stmt_s d c s p x : reach s x -> reach (OStmt d c s p) x
| reach_stmt_p d c s p x : reach p x -> reach (OStmt d c s p) x
| reach_comp d c l y x : In y l -> reach y x -> reach (OComp d c l) x.

(* The index cells an object's three index lists point to. *)
Definition own_cells (h : heap) (o : obj) : list nat :=
  iv_indices (node h (iv_ind (hdr o)))
    ++ iv_indices (node h (iv_dep (hdr o)))
    ++ iv_indices (node h (iv_qry (hdr o))).

(* c is a cell reachable from o. *)
Definition cell_of (h : heap) (o : obj) (c : nat) : Prop :=
  exists x, reach o x /\ In c (own_cells h x).

(* In every commutative compound of the term the components have pairwise
   different hashes and are in ascending order. *)
Definition well_ordered (t : term) : Prop :=
  forall c l, set_like c -> occurs (Comp c l) t -> ascending l.

(* Two headers agree in all that is observable of a term: everything but its
   address and its index lists. *)
Definition same_fields (d d' : header) : Prop :=
  h_hash d = h_hash d' /\ h_complexity d = h_complexity d'
  /\ h_has_var d = h_has_var d' /\ h_has_ivar d = h_has_ivar d'
  /\ h_has_dvar d = h_has_dvar d' /\ h_has_qvar d = h_has_qvar d'
  /\ h_is_operation d = h_is_operation d' /\ h_is_higher_order d = h_is_higher_order d'.

(* [x] contains a variable object. *)
Definition variable_inside (x : obj) : Prop := exists d k, reach x (OVar d k).

(* The stored fields of an object are those of the term it denotes. *)
Definition fields_match (h : heap) (o : obj) : Prop :=
  let d := hdr o in let t := denote h o in
  h_hash d = thash t /\ h_complexity d = complexity t
  /\ h_has_var d = has_var t /\ h_has_ivar d = has_ivar t
  /\ h_has_dvar d = has_dvar t /\ h_has_qvar d = has_qvar t
  /\ h_is_operation d = is_operation t /\ h_is_higher_order d = is_higher_order t.
