(* Properties of terms: C01-C07, C19, C20, C25-C28, C73. *)
From Coq Require Import String ZArith List Bool Lia Permutation.
From Verif Require Import Base Hash Enums Term TermSpec TermFacts Terms TermsFacts Compound
  CompoundFacts CompoundSpec CompoundFacts2 CompoundFacts3 TermCases TermOrderSpec TermOrderFacts
  TermEqFacts OrderCases.
Import ListNotations.
Local Open Scope Z_scope.

(* ---- C01 ---- *)
Theorem C01_order_variable_free : strict_weak_order var_free tlt.
Proof. exact swo_var_free. Qed.
Print Assumptions C01_order_variable_free.

Example C01_case : var_free (Stmt Inheritance A (Comp Product [B; Itv 3])) /\
  tlt A (Stmt Inheritance A (Comp Product [B; Itv 3])) = true.
Proof. split; [apply var_free_check; reflexivity | vm_compute; reflexivity]. Qed.

(* ---- C02 ---- *)
Theorem C02_order_with_variables_refuted : ~ strict_weak_order (fun _ => True) tlt.
Proof. exact order_with_variables_fails. Qed.
Print Assumptions C02_order_with_variables_refuted.

(* What is missing: terms that contain a variable properly. *)
Theorem C02_order_bare_variables_partial : strict_weak_order var_free_or_var tlt.
Proof. exact swo_var_free_or_var. Qed.
Print Assumptions C02_order_bare_variables_partial.

Example C02_case : var_free_or_var (Var Query 4) /\ var_free_or_var A.
Proof. split; [right; eauto | left; apply var_free_check; reflexivity]. Qed.

(* What is missing: the laws fail only among terms with variables and equal
   hashes. *)
Theorem C02_order_ties_partial : forall P : term -> Prop,
  (forall h, strict_weak_order (fun t => P t /\ thash t = h /\ ~ var_free t) tlt) ->
  strict_weak_order P tlt.
Proof. exact order_by_classes. Qed.
Print Assumptions C02_order_ties_partial.

(* What is missing: among terms with variables whose hashes are equal only by
   renaming, the laws hold exactly where of any two that differ in indices one
   has all indices at most those of the other. *)
Theorem C02_order_exactly_partial : forall P : term -> Prop,
  (forall t1 t2, P t1 -> P t2 -> ~ var_free t1 -> ~ var_free t2 ->
     thash t1 = thash t2 -> renaming t1 t2) ->
  (strict_weak_order P tlt <->
   (forall t1 t2, P t1 -> P t2 -> renaming t1 t2 -> below t1 t2 \/ below t2 t1)).
Proof. exact order_iff_chain. Qed.
Print Assumptions C02_order_exactly_partial.

(* What is missing: terms with two different indices. *)
Theorem C02_order_one_index_partial : forall P : term -> Prop,
  (forall t, P t -> one_index t) ->
  (forall t1 t2, P t1 -> P t2 -> ~ var_free t1 -> ~ var_free t2 ->
     thash t1 = thash t2 -> renaming t1 t2) ->
  strict_weak_order P tlt.
Proof. exact order_one_index. Qed.
Print Assumptions C02_order_one_index_partial.

(* What is missing: `<` between terms that differ in indices only says that
   some index is below the one in its place, not that the first such is. *)
Theorem C02_order_renamed_partial : forall t1 t2, renaming t1 t2 ->
  (tlt t1 t2 = true <-> ~ below t2 t1).
Proof. exact renaming_less. Qed.
Print Assumptions C02_order_renamed_partial.

Example C02_class_case :
  (forall t, is_a t -> one_index t) /\
  (forall t1 t2, is_a t1 -> is_a t2 -> ~ var_free t1 -> ~ var_free t2 ->
     thash t1 = thash t2 -> renaming t1 t2) /\
  is_a (Stmt Inheritance (Var Independent 7) A) /\
  tlt (Stmt Inheritance (Var Independent 3) A) (Stmt Inheritance (Var Independent 7) A) = true.
Proof. exact is_a_ok. Qed.

Example C02_below_case :
  below (sp 0 1) (sp 0 2) /\ ~ below (sp 0 1) (sp 1 0) /\ renaming (sp 0 1) (sp 1 0).
Proof. exact below_case. Qed.

(* ---- C03 ---- *)
Theorem C03_equality_laws :
  (forall t, only_ivars t -> teq t t = Ok true) /\
  (forall t1 t2, only_ivars t1 -> only_ivars t2 -> teq t1 t2 = teq t2 t1) /\
  (forall t1 t2, teq t1 t2 = Ok true -> thash t1 = thash t2).
Proof. exact equality_laws. Qed.
Print Assumptions C03_equality_laws.

Example C03_case : only_ivars (sp 0 1) /\ teq (sp 0 1) (sp 0 1) = Ok true
  /\ teq (sp 0 1) (sp 1 0) = Ok false.
Proof. split; [apply only_ivars_check; reflexivity | split; vm_compute; reflexivity]. Qed.

(* ---- C73 ---- *)
Theorem C73_equality_transitive_refuted :
  ~ (forall t1 t2 t3, only_ivars t1 -> only_ivars t2 -> only_ivars t3 ->
       teq t1 t2 = Ok true -> teq t2 t3 = Ok true -> teq t1 t3 = Ok true).
Proof. exact equality_not_transitive. Qed.
Print Assumptions C73_equality_transitive_refuted.

(* What is missing: terms with the interval +-127, whose hash is that of $x. *)
Theorem C73_equality_transitive_partial : forall t1 t2 t3,
  only_ivars t1 -> only_ivars t2 -> only_ivars t3 ->
  no_var_clash t1 -> no_var_clash t2 -> no_var_clash t3 ->
  teq t1 t2 = Ok true -> teq t2 t3 = Ok true -> teq t1 t3 = Ok true.
Proof. exact teq_trans. Qed.
Print Assumptions C73_equality_transitive_partial.

Example C73_case : only_ivars sample /\ no_var_clash sample /\ teq sample sample = Ok true.
Proof.
  split; [apply only_ivars_check; vm_compute; reflexivity|].
  split; [apply no_var_clash_of_leaf_ok, leaf_ok_check; vm_compute; reflexivity | vm_compute; reflexivity].
Qed.

(* ---- C04 ---- *)
Theorem C04_equality_defined_refuted : ~ (forall t1 t2, exists b, teq t1 t2 = Ok b).
Proof. exact equality_undefined. Qed.
Print Assumptions C04_equality_defined_refuted.

(* What is missing: terms with dependent or query variables. *)
Theorem C04_equality_defined_partial : forall t1 t2,
  only_ivars t1 -> only_ivars t2 -> exists b, teq t1 t2 = Ok b.
Proof. exact teq_defined. Qed.
Print Assumptions C04_equality_defined_partial.

Example C04_case : only_ivars sample /\ only_ivars (sp 3 4).
Proof. split; apply only_ivars_check; vm_compute; reflexivity. Qed.

(* What is missing: terms that have the same hash without being renamings of
   each other.  Up to those, what comparing two terms does is settled by the
   first place, from the left, that has a dependent or query variable or
   different independent variables. *)
Theorem C04_equality_renamed_partial : forall t1 t2, renaming t1 t2 ->
  (teq t1 t2 = UB <-> exists k i j, k <> Independent /\ parted t1 t2 k i j) /\
  (teq t1 t2 = Ok false <-> exists i j, i <> j /\ parted t1 t2 Independent i j) /\
  (teq t1 t2 = Ok true <-> t1 = t2 /\ only_ivars t1).
Proof. exact teq_renaming. Qed.
Print Assumptions C04_equality_renamed_partial.

Theorem C04_equality_other_hash_partial : forall t1 t2, thash t1 <> thash t2 -> teq t1 t2 = Ok false.
Proof. exact teq_other_hash. Qed.
Print Assumptions C04_equality_other_hash_partial.

Example C04_renamed_case :
  parted (Comp Product [Var Independent 2; Var Dependent 1]) (Comp Product [Var Independent 2; Var Dependent 5])
    Dependent 1 5 /\
  renaming (Comp Product [Var Independent 2; Var Dependent 1]) (Comp Product [Var Independent 2; Var Dependent 5]).
Proof. exact parted_case. Qed.

Example C04_hash_case : thash A <> thash B.
Proof. vm_compute. discriminate. Qed.

(* ---- C05 ---- *)
Theorem C05_equality_identity : forall heap t1 t2,
  only_ivars t1 -> only_ivars t2 -> leaf_ok t1 -> leaf_ok t2 ->
  on_heap heap t1 -> on_heap heap t2 ->
  (teq t1 t2 = Ok true <-> t1 = t2).
Proof. exact equality_is_identity. Qed.
Print Assumptions C05_equality_identity.

Example C05_case : only_ivars sample /\ leaf_ok sample /\ on_heap (fun a => a =? addr 9) sample /\
  teq sample sample = Ok true /\ teq A B = Ok false.
Proof.
  split; [apply only_ivars_check; vm_compute; reflexivity|].
  split; [apply leaf_ok_check; vm_compute; reflexivity|].
  split; [apply on_heap_check; vm_compute; reflexivity | split; vm_compute; reflexivity].
Qed.

(* ---- C06 ---- *)
Theorem C06_renaming_hash : forall t1 t2, renaming t1 t2 -> thash t1 = thash t2.
Proof. exact renaming_hash. Qed.
Print Assumptions C06_renaming_hash.

Example C06_case : renaming (sp 0 1) (sp 5 5).
Proof. repeat constructor. Qed.

(* ---- C07 ---- *)
Theorem C07_components_kept_refuted :
  ~ (forall ord t1 t2 t, any_order ord -> var_free t1 -> var_free t2 -> teq t1 t2 = Ok false ->
       compound ord true ExtensionalSet [t1; t2] = Ok t ->
       exists l, t = Comp ExtensionalSet l /\ In t1 l /\ In t2 l).
Proof. exact distinct_components_merged. Qed.
Print Assumptions C07_components_kept_refuted.

(* What is missing: terms with equal 64-bit hashes are merged. *)
Theorem C07_merged_only_on_collision_partial : forall l x,
  Forall var_free l -> In x l ->
  exists z, In z (mk_terms true l) /\ In z l /\ thash z = thash x.
Proof. exact merged_only_on_collision. Qed.
Print Assumptions C07_merged_only_on_collision_partial.

Example C07_case : Forall var_free [A; B; A] /\ length (mk_terms true [A; B; A]) = 2%nat.
Proof. split; [apply forall_var_free_check; reflexivity | vm_compute; reflexivity]. Qed.

(* ---- C19 ---- *)
Theorem C19_complexity : forall t,
  complexity t = Z.of_nat (length (leaves t) + length (statements t)).
Proof. exact complexity_spec. Qed.
Print Assumptions C19_complexity.

Example C19_case : complexity (Stmt Implication (sp 0 1) (Comp Product [A; B; C])) = 7.
Proof. reflexivity. Qed.

(* ---- C20 ---- *)
Theorem C20_flags : forall t,
  (has_var t = true <-> exists k i, occurs (Var k i) t) /\
  (has_ivar t = true <-> exists i, occurs (Var Independent i) t) /\
  (has_dvar t = true <-> exists i, occurs (Var Dependent i) t) /\
  (has_qvar t = true <-> exists i, occurs (Var Query i) t).
Proof. exact flags_exact. Qed.
Print Assumptions C20_flags.

Example C20_case : has_dvar (Comp Product [A; Stmt Inheritance B (Var Dependent 4)]) = true
  /\ has_qvar (Comp Product [A; Stmt Inheritance B (Var Dependent 4)]) = false.
Proof. split; reflexivity. Qed.

(* ---- C25 ---- *)
Theorem C25_union : forall U t rest, collision_free U ->
  (forall u, In u (t :: rest) -> t_comm u = true /\ ascending (t_elems u) /\
     forall x, In x (t_elems u) -> U x) ->
  exists s, terms_union (t :: rest) = Ok s /\ ascending s /\
    forall z, In z s <-> exists u, In u (t :: rest) /\ In z (t_elems u).
Proof. exact union_exact. Qed.
Print Assumptions C25_union.

Theorem C25_intersection : forall U t rest, collision_free U ->
  (forall u, In u (t :: rest) -> t_comm u = true /\ ascending (t_elems u) /\
     forall x, In x (t_elems u) -> U x) ->
  exists s, terms_intersection (t :: rest) = Ok s /\ ascending s /\
    forall z, In z s <-> forall u, In u (t :: rest) -> In z (t_elems u).
Proof. exact intersection_exact. Qed.
Print Assumptions C25_intersection.

Theorem C25_difference : forall U t rest, collision_free U ->
  (forall u, In u (t :: rest) -> t_comm u = true /\ ascending (t_elems u) /\
     forall x, In x (t_elems u) -> U x) ->
  exists s, terms_difference (t :: rest) = Ok s /\ ascending s /\
    forall z, In z s <-> In z (t_elems t) /\ forall u, In u rest -> ~ In z (t_elems u).
Proof. exact difference_exact. Qed.
Print Assumptions C25_difference.

Theorem C25_errors : forall op all,
  op = terms_union \/ op = terms_intersection \/ op = terms_difference ->
  (op all = Throw <-> all = [] \/ exists t rest u, all = t :: rest /\ In u rest /\ t_comm u = false)
  /\ (op all <> Throw -> exists s, op all = Ok s).
Proof. exact terms_op_errors. Qed.
Print Assumptions C25_errors.

Example C25_case : collision_free (fun x => In x [A; B; C]) /\
  terms_union [Terms true (terms_set [A; B]); Terms true (terms_set [B; C])] = Ok (terms_set [A; B; C]) /\
  terms_intersection [Terms true (terms_set [A; B]); Terms true (terms_set [B; C])] = Ok [B] /\
  terms_difference [Terms true (terms_set [A; B]); Terms true (terms_set [B; C])] = Ok [A].
Proof. split; [apply cf_list; reflexivity | repeat split; vm_compute; reflexivity]. Qed.

(* ---- C26 ---- *)
Theorem C26_arity : forall c n, check_valid c n = true <-> arity c n.
Proof. exact arity_rule. Qed.
Print Assumptions C26_arity.

Example C26_case : arity Negation 1 /\ ~ arity Negation 2 /\ arity ExtensionalDifference 2 /\ ~ arity Conjunction 1.
Proof.
  split; [apply C26_arity; reflexivity|]. split; [intros H; apply C26_arity in H; discriminate H|].
  split; [apply C26_arity; reflexivity | intros H; apply C26_arity in H; discriminate H].
Qed.

(* ---- C27 ---- *)
Theorem C27_python_connectors_refuted :
  ~ (forall n1 n2 c s1 s2, In (n1, c, s1) py_connectors -> In (n2, c, s2) py_connectors -> n1 = n2).
Proof. exact python_connectors_clash. Qed.
Print Assumptions C27_python_connectors_refuted.

(* What is missing: the member ExtensionalDifference. *)
Theorem C27_python_connectors_partial : forall n c s, In (n, c, s) py_connectors ->
  n <> "ExtensionalDifference"%string ->
  con_repr c = s /\
  forall n' s', In (n', c, s') py_connectors -> n' <> "ExtensionalDifference"%string -> n' = n.
Proof. exact python_connectors_others. Qed.
Print Assumptions C27_python_connectors_partial.

Example C27_case : In ("Product"%string, Product, "*"%string) py_connectors.
Proof. simpl; tauto. Qed.

(* ---- C28 ---- *)
Theorem C28_counterparts_refuted :
  ~ (forall c, (symmetrize c = true <-> symmetrize_tab c <> None) /\
               (reverse c = true <-> reverse_tab c <> None)).
Proof. exact copula_counterparts_lost. Qed.
Print Assumptions C28_counterparts_refuted.

(* What is left: both functions are constantly true. *)
Theorem C28_counterparts_partial : forall c, symmetrize c = true /\ reverse c = true.
Proof. exact copula_counterparts_constant. Qed.
Print Assumptions C28_counterparts_partial.
