(* Properties of compounds: C08-C18, C74-C77. *)
From Coq Require Import ZArith List Bool Lia Permutation Sorting.
From Verif Require Import Base Hash Enums Term TermSpec TermFacts Terms TermsFacts Compound
  CompoundFacts CompoundSpec CompoundSpec2 CompoundFacts2 CompoundFacts3 TermCases CompoundCases
  CompoundFacts4 CompoundFacts5 CompoundFacts6.
Import ListNotations.
Local Open Scope Z_scope.

(* ---- C08 ---- *)
Theorem C08_argument_order : forall ord b con l1 l2,
  set_like con -> collision_free (fun t => In t l1) -> Permutation l1 l2 ->
  compound ord b con l1 = compound ord b con l2.
Proof. exact argument_order_irrelevant. Qed.
Print Assumptions C08_argument_order.

Example C08_case : set_like Conjunction /\ collision_free (fun t => In t [A; B; or_AB]) /\
  Permutation [A; B; or_AB] [or_AB; B; A].
Proof.
  split; [constructor|]. split; [apply cf_list; vm_compute; reflexivity|].
  apply (Permutation_rev [A; B; or_AB]).
Qed.

(* ---- C09 ---- *)
Theorem C09_repetition : forall ord b con l1 x l2,
  set_like con -> collision_free (fun t => In t (l1 ++ l2)) -> In x (l1 ++ l2) ->
  compound ord b con (l1 ++ x :: l2) = compound ord b con (l1 ++ l2).
Proof. exact repetition_irrelevant. Qed.
Print Assumptions C09_repetition.

Example C09_case : collision_free (fun t => In t ([A] ++ [B; or_AB])) /\ In or_AB ([A] ++ [B; or_AB]).
Proof. split; [apply cf_list; vm_compute; reflexivity | simpl; tauto]. Qed.

(* ---- C10 ---- *)
Theorem C10_exact_components : forall ord b con args l,
  any_order ord -> set_like con -> Forall tidy args -> unfolds con args l ->
  collision_free (fun t => In t args \/ In t l) -> enough con l ->
  exists r, compound ord b con args = Ok (Comp con r) /\ ascending r /\
    (forall x, In x r <-> In x l).
Proof. exact exact_components. Qed.
Print Assumptions C10_exact_components.

Example C10_case :
  Forall tidy [C; or_AB] /\ unfolds Conjunction [C; or_AB] [C; or_AB] /\
  collision_free (fun t => In t [C; or_AB] \/ In t [C; or_AB]) /\ enough Conjunction [C; or_AB] /\
  Forall tidy [C; or_AB] /\ unfolds Disjunction [C; or_AB] (C :: terms_set [A; B] ++ []) /\
  enough Disjunction (C :: terms_set [A; B] ++ []).
Proof. exact C10_instance. Qed.

(* ---- C11 ---- *)
Theorem C11_no_component_lost_refuted :
  ~ (forall ord b con args t, any_order ord -> Forall (built ord) args ->
      compound ord b con args = Ok t ->
      forall x op a, In x args -> occurs (Atom op a) x -> occurs (Atom op a) t).
Proof. exact component_lost. Qed.
Print Assumptions C11_no_component_lost_refuted.

(* What is missing: set-like connectors with arguments that are not tidy. *)
Theorem C11_no_component_lost_partial : forall ord b con args l t,
  any_order ord -> unfolds con args l ->
  plain con \/ con = SequentialEvents \/
    (set_like con /\ Forall tidy args /\ collision_free (fun t => In t args \/ In t l) /\ enough con l) ->
  compound ord b con args = Ok t ->
  forall x, In x (leaves t) <-> In x (flat_map leaves args).
Proof. exact nothing_lost. Qed.
Print Assumptions C11_no_component_lost_partial.

(* What is missing: intersections, and arguments as in C76; the arguments need
   not be tidy. *)
Theorem C11_untidy_partial : forall ord b con args t,
  any_order ord -> set_like con -> ~ intersection con -> Forall solid args ->
  (forall x c l, In x args -> occurs (Comp c l) x -> ~ intersection c) ->
  collision_free (fun u => (exists x, In x args /\ occurs u x) \/
    gathers ord con (mk_terms (is_commutative con) args) u) ->
  compound ord b con args = Ok t ->
  forall x, In x (leaves t) <-> In x (flat_map leaves args).
Proof. exact no_leaf_lost. Qed.
Print Assumptions C11_untidy_partial.

Example C11_case : plain Product /\ unfolds Product [A; B] [A; B] /\
  compound id_order true Product [A; B] = Ok (Comp Product [A; B]).
Proof.
  split; [constructor|]. split; [repeat constructor; intros l E; discriminate E | vm_compute; reflexivity].
Qed.

Example C11_untidy_case :
  set_like Conjunction /\ ~ intersection Conjunction /\ Forall solid [C; or_BAB] /\
  (forall x c l, In x [C; or_BAB] -> occurs (Comp c l) x -> ~ intersection c) /\
  collision_free (fun u => (exists x, In x [C; or_BAB] /\ occurs u x) \/
    gathers id_order Conjunction (mk_terms (is_commutative Conjunction) [C; or_BAB]) u) /\
  compound id_order true Conjunction [C; or_BAB] = Ok (Comp Conjunction (terms_set [C; or_AB])).
Proof. exact C11_untidy. Qed.

(* ---- C12 ---- *)
Theorem C12_sequence : forall ord b args, any_order ord ->
  exists l, compound ord b SequentialEvents args = Ok (Comp SequentialEvents l) /\
    unfolds SequentialEvents args l /\
    (Forall (built ord) args -> forall l', ~ In (Comp SequentialEvents l') l).
Proof. exact sequence_unfolds. Qed.
Print Assumptions C12_sequence.

Example C12_case :
  unfolds SequentialEvents [A; Comp SequentialEvents [B; B]; C] [A; B; B; C] /\
  Forall (built id_order) [A; Comp SequentialEvents [B; B]; C].
Proof. exact C12_instance. Qed.

(* ---- C13 ---- *)
Theorem C13_plain : forall ord b con args,
  plain con -> compound ord b con args = Ok (Comp con args).
Proof. exact plain_build. Qed.
Print Assumptions C13_plain.

Example C13_case : plain Product /\
  compound id_order true Product [B; Comp Product [A; A]; B] = Ok (Comp Product [B; Comp Product [A; A]; B]).
Proof. split; [constructor | vm_compute; reflexivity]. Qed.

(* ---- C14 ---- *)
Theorem C14_union_of_sets : forall ord b U par st sets, any_order ord ->
  (par = IntensionalIntersection /\ st = ExtensionalSet) \/
  (par = ExtensionalIntersection /\ st = IntensionalSet) ->
  collision_free U -> sets <> [] ->
  (forall t, In t sets -> U t /\ exists m, t = Comp st m /\ ascending m /\ forall x, In x m -> U x) ->
  exists l, compound ord b par sets = Ok (Comp st l) /\ ascending l /\
    forall z, In z l <-> exists m, In (Comp st m) sets /\ In z m.
Proof. exact union_of_sets. Qed.
Print Assumptions C14_union_of_sets.

Example C14_case : collision_free (UABC ExtensionalSet) /\
  (forall t, In t (sets_AB_BC ExtensionalSet) -> UABC ExtensionalSet t /\
     exists m, t = Comp ExtensionalSet m /\ ascending m /\ forall x, In x m -> UABC ExtensionalSet x).
Proof. split; [apply UABC_free; left; reflexivity | exact (sets_AB_BC_ok ExtensionalSet)]. Qed.

(* ---- C15 ---- *)
Theorem C15_intersection_of_sets_refuted :
  ~ (forall ord b U par st sets, any_order ord ->
      (par = ExtensionalIntersection /\ st = ExtensionalSet) \/
      (par = IntensionalIntersection /\ st = IntensionalSet) ->
      collision_free U -> (2 <= length sets)%nat ->
      (forall t, In t sets -> U t /\ exists m, t = Comp st m /\ ascending m /\ forall x, In x m -> U x) ->
      (exists z, forall m, In (Comp st m) sets -> In z m) ->
      exists l, compound ord b par sets = Ok (Comp st l) /\ ascending l /\
        forall z, In z l <-> forall m, In (Comp st m) sets -> In z m).
Proof. exact intersection_rule_broken. Qed.
Print Assumptions C15_intersection_of_sets_refuted.

(* What is missing: the result keeps the intersection connector. *)
Theorem C15_intersection_of_sets_partial : forall ord b U par st sets, any_order ord ->
  (par = ExtensionalIntersection /\ st = ExtensionalSet) \/
  (par = IntensionalIntersection /\ st = IntensionalSet) ->
  collision_free U -> sets <> [] ->
  (forall t, In t sets -> U t /\ exists m, t = Comp st m /\ ascending m /\ forall x, In x m -> U x) ->
  exists l, compound ord b par sets = Ok (Comp par l) /\ ascending l /\
    forall z, In z l <-> forall m, In (Comp st m) sets -> In z m.
Proof. exact intersection_of_sets. Qed.
Print Assumptions C15_intersection_of_sets_partial.

Example C15_case : collision_free (UABC IntensionalSet) /\ sets_AB_BC IntensionalSet <> [] /\
  (forall t, In t (sets_AB_BC IntensionalSet) -> UABC IntensionalSet t /\
     exists m, t = Comp IntensionalSet m /\ ascending m /\ forall x, In x m -> UABC IntensionalSet x).
Proof.
  split; [apply UABC_free; right; reflexivity | split; [discriminate | exact (sets_AB_BC_ok IntensionalSet)]].
Qed.

(* ---- C16 ---- *)
Theorem C16_difference_of_sets_refuted :
  ~ (forall ord b par st x y, any_order ord ->
      (par = ExtensionalDifference /\ st = ExtensionalSet) \/
      (par = IntensionalDifference /\ st = IntensionalSet) ->
      exists l, compound ord b par [Comp st x; Comp st y] = Ok (Comp st l) /\
        forall z, In z l <-> In z x /\ ~ In z y).
Proof. exact difference_rule_broken. Qed.
Print Assumptions C16_difference_of_sets_refuted.

(* What is missing: the rule; what is built is the compound of the arguments as
   given, in their order, whatever they are. *)
Theorem C16_difference_kept_partial : forall ord b par args,
  par = ExtensionalDifference \/ par = IntensionalDifference ->
  compound ord b par args = Ok (Comp par args).
Proof. exact difference_kept. Qed.
Print Assumptions C16_difference_kept_partial.

Example C16_case : compound id_order true ExtensionalDifference [Comp ExtensionalSet [A; B]; Comp ExtensionalSet [B]]
  = Ok (Comp ExtensionalDifference [Comp ExtensionalSet [A; B]; Comp ExtensionalSet [B]]).
Proof. vm_compute. reflexivity. Qed.

(* ---- C17 ---- *)
Theorem C17_normal_form_refuted :
  ~ (forall ord b con args t, any_order ord -> Forall (built ord) args ->
      (forall x, In x args -> ~ self_nested x) ->
      compound ord b con args = Ok t -> ~ self_nested t).
Proof. exact normal_form_broken. Qed.
Print Assumptions C17_normal_form_refuted.

(* What is missing: arguments that are not tidy. *)
Theorem C17_normal_form_partial : forall ord b con args l t,
  any_order ord -> set_like con -> Forall tidy args -> unfolds con args l ->
  collision_free (fun t => In t args \/ In t l) -> enough con l ->
  (exists x y, In x l /\ In y l /\ x <> y) \/ con = ExtensionalSet \/ con = IntensionalSet ->
  compound ord b con args = Ok t -> tidy t.
Proof. exact result_tidy. Qed.
Print Assumptions C17_normal_form_partial.

(* Hypotheses: see C10_case; the last one holds for the two terms C and or_AB. *)
Example C17_case : (exists x y, In x [C; or_AB] /\ In y [C; or_AB] /\ x <> y) /\ tidy or_AB.
Proof.
  split; [exists C, or_AB; split; [simpl; tauto | split; [simpl; tauto | discriminate]] | exact or_AB_tidy].
Qed.

(* ---- C18 ---- *)
Theorem C18_rebuild_refuted :
  ~ (forall ord b c l, any_order ord -> built ord (Comp c l) ->
      compound ord b c l = Ok (Comp c l)).
Proof. exact rebuild_broken. Qed.
Print Assumptions C18_rebuild_refuted.

(* What is missing: set-like compounds that are not tidy. *)
Theorem C18_rebuild_partial : forall ord b con l, any_order ord ->
  plain con \/ (con = SequentialEvents /\ forall l', ~ In (Comp SequentialEvents l') l) \/
    (set_like con /\ tidy (Comp con l)) ->
  compound ord b con l = Ok (Comp con l).
Proof. exact rebuild_partial. Qed.
Print Assumptions C18_rebuild_partial.

Example C18_case : set_like Disjunction /\ tidy or_AB.
Proof. split; [constructor | exact or_AB_tidy]. Qed.

(* ---- C74 ---- *)
Theorem C74_iteration_order : forall ord1 ord2 b con args,
  any_order ord1 -> any_order ord2 ->
  collision_free (gathers ord1 con (mk_terms (is_commutative con) args)) ->
  compound ord1 b con args = compound ord2 b con args.
Proof. exact iteration_order_irrelevant. Qed.
Print Assumptions C74_iteration_order.

Example C74_case : any_order rev_order /\
  collision_free (gathers id_order Conjunction (mk_terms (is_commutative Conjunction) [C; or_AB])) /\
  compound rev_order true Conjunction [C; or_AB] = Ok (Comp Conjunction (terms_set [C; or_AB])).
Proof. exact C74_instance. Qed.

(* ---- C75 ---- *)
Theorem C75_nothing_invented : forall ord, any_order ord -> forall b con args t,
  compound ord b con args = Ok t -> incl (leaves t) (flat_map leaves args).
Proof. exact leaves_incl. Qed.
Print Assumptions C75_nothing_invented.

Example C75_case : compound id_order true IntensionalIntersection (sets_AB_BC ExtensionalSet)
  = Ok (Comp ExtensionalSet (terms_set [A; B; C])).
Proof. vm_compute. reflexivity. Qed.

(* ---- C76 ---- *)
Theorem C76_build_defined_refuted :
  ~ (forall ord b con args, any_order ord -> args <> [] -> Forall (built ord) args ->
      exists t, compound ord b con args = Ok t).
Proof. exact build_undefined. Qed.
Print Assumptions C76_build_defined_refuted.

(* What is missing: definedness for arguments inside which a set-like compound
   has no component, or one without being a set. *)
Theorem C76_build_defined_partial : forall ord b con args, any_order ord ->
  compound ord b con args <> Throw /\ compound ord b con args <> OutOfFuel /\
  (plain con \/ con = SequentialEvents \/
   (set_like con /\ args <> [] /\ Forall var_free args /\ Forall solid args) ->
   exists t, compound ord b con args = Ok t) /\
  (set_like con -> compound ord b con [] = UB).
Proof. exact build_solid. Qed.
Print Assumptions C76_build_defined_partial.

Example C76_case : set_like ExtensionalIntersection /\
  loose <> [] /\ Forall var_free loose /\ Forall solid loose.
Proof. split; [constructor | exact loose_solid]. Qed.

(* ---- C77 ---- *)
Theorem C77_repeated_argument_refuted :
  ~ (forall ord b con t r, any_order ord -> set_like con -> tidy t -> (forall l, t <> Comp con l) ->
      compound ord b con [t; t] = Ok r -> exists l, r = Comp con l /\ In t l).
Proof. exact repeated_compound_changed. Qed.
Print Assumptions C77_repeated_argument_refuted.

(* What is missing: a term that is itself a set-like compound. *)
Theorem C77_repeated_argument_partial : forall ord b con t n, any_order ord -> set_like con ->
  var_free t -> ~ set_compound t ->
  compound ord b con (t :: repeat t n) = Ok (Comp con [t]).
Proof. exact repeated_term_kept. Qed.
Print Assumptions C77_repeated_argument_partial.

Example C77_case : var_free (Stmt Inheritance A B) /\ ~ set_compound (Stmt Inheritance A B).
Proof. split; [apply var_free_check; reflexivity | intros (c & l & E & _); discriminate E]. Qed.

(* What is missing: terms that are tidy but for their order or repetitions.
   Set-like compounds of another connector lose theirs, unless they are sets
   that the intersection takes over. *)
Theorem C77_set_compound_partial : forall ord b con c l n, any_order ord -> set_like con -> set_like c ->
  tidy (Comp c l) ->
  (c = con \/ (con = IntensionalIntersection /\ c = ExtensionalSet)
     \/ (con = ExtensionalIntersection /\ c = IntensionalSet) ->
   compound ord b con (Comp c l :: repeat (Comp c l) n) = Ok (Comp c l))
  /\ (~ (c = con \/ (con = IntensionalIntersection /\ c = ExtensionalSet)
     \/ (con = ExtensionalIntersection /\ c = IntensionalSet)) ->
   compound ord b con (Comp c l :: repeat (Comp c l) n) = Ok (Comp con l)).
Proof. exact repeated_set_compound. Qed.
Print Assumptions C77_set_compound_partial.

Example C77_set_case : tidy or_AB /\
  compound id_order true Disjunction [or_AB; or_AB] = Ok or_AB /\
  compound id_order true Conjunction [or_AB; or_AB] = Ok (Comp Conjunction (terms_set [A; B])).
Proof. split; [exact or_AB_tidy | split; vm_compute; reflexivity]. Qed.
