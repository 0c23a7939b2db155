(* Properties of the classes of copulas and connectors: C28, C185, C186. *)
From Coq Require Import ZArith List Bool String Ascii.
From Verif Require Import Base Enums Term TermSpec TermCases CompoundSpec CompoundFacts Compound CompoundCases
  SignsSpec SignsFacts.
Import ListNotations.
Local Open Scope Z_scope.

(* ---- C28 ---- *)

(* What is missing: the functions do not give what the tables hold. *)
Theorem C28_tables_partial : forall c d,
  (symmetrize_tab c = Some d <-> both_ways (cop_repr c) (cop_repr d))
  /\ (reverse_tab c = Some d <-> timed (cop_repr c) /\ turned (cop_repr c) = cop_repr d).
Proof. intros c d. exact (conj (symmetrize_table c d) (reverse_table c d)). Qed.
Print Assumptions C28_tables_partial.

Example C28_case : both_ways (cop_repr PredictiveImplication) (cop_repr PredictiveEquivalence)
  /\ timed (cop_repr PredictiveImplication)
  /\ turned (cop_repr PredictiveImplication) = cop_repr RetrospectiveImplication.
Proof.
  exact (conj (proj1 (symmetrize_table PredictiveImplication PredictiveEquivalence) eq_refl)
    (proj1 (reverse_table PredictiveImplication RetrospectiveImplication) eq_refl)).
Qed.

(* ---- C185 ---- *)
Theorem C185_copulas : forall c,
  (cop_commutative c = true <-> mirror (cop_repr c) = cop_repr c)
  /\ (cop_higher_order c = true <-> ~ contains "-" (cop_repr c))
  /\ (cop_temporal c = true <-> timed (cop_repr c)).
Proof. exact copula_classes. Qed.
Print Assumptions C185_copulas.

Theorem C185_connectors : forall c,
  is_temporal c = true <-> exists x, con_repr c = String "&" (String x "") /\ x <> "&"%char.
Proof. exact connector_classes. Qed.
Print Assumptions C185_connectors.

Theorem C185_signs_differ : (forall c c', cop_repr c = cop_repr c' -> c = c')
  /\ (forall c c', con_repr c = con_repr c' -> c = c')
  /\ (forall k k', vk_repr k = vk_repr k' -> k = k').
Proof. exact signs_differ. Qed.
Print Assumptions C185_signs_differ.

Example C185_case : mirror (cop_repr PredictiveEquivalence) = "<\>"%string
  /\ cop_repr PredictiveEquivalence = "</>"%string /\ timed (cop_repr PredictiveEquivalence)
  /\ con_repr SequentialEvents = "&/"%string.
Proof.
  exact (conj eq_refl (conj eq_refl (conj (proj1 (proj2 (proj2 (copula_classes PredictiveEquivalence))) eq_refl) eq_refl))).
Qed.

(* ---- C186 ---- *)
Theorem C186_turned_round_refuted :
  ~ (forall c s p, cop_commutative c = true -> teq (Stmt c s p) (Stmt c p s) = Ok true).
Proof. exact turned_round_unequal. Qed.
Print Assumptions C186_turned_round_refuted.

(* What is missing: the two are equal only if subject and predicate are;
   otherwise a set-like compound keeps both. *)
Theorem C186_turned_round_partial : forall c s p, only_ivars s -> only_ivars p ->
  teq (Stmt c s p) (Stmt c p s) = teq s p.
Proof. exact turned_round. Qed.
Print Assumptions C186_turned_round_partial.

Theorem C186_both_kept_partial : forall ord b con c s p, any_order ord -> set_like con ->
  s <> p -> collision_free (fun t => t = Stmt c s p \/ t = Stmt c p s) ->
  exists l, compound ord b con [Stmt c s p; Stmt c p s] = Ok (Comp con l) /\ List.length l = 2%nat /\
    forall x, In x l <-> x = Stmt c s p \/ x = Stmt c p s.
Proof. exact both_kept. Qed.
Print Assumptions C186_both_kept_partial.

Example C186_case : cop_commutative Similarity = true /\ only_ivars A /\ only_ivars B /\ A <> B /\
  collision_free (fun t => t = Stmt Similarity A B \/ t = Stmt Similarity B A) /\
  teq A B = Ok false.
Proof. exact turned_case. Qed.
