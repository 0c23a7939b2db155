(* What the copulas {--, --] and {-] do to compounds that are sets. *)
From Coq Require Import ZArith List Bool String Ascii Permutation.
From Verif Require Import Base Hash Enums Term TermSpec TermFacts Terms TermsFacts Compound CompoundSpec
  CompoundFacts CompoundFacts2 CompoundFacts3 CompoundCases Interning Parser Actions ActionsSpec CopulaSpec ActionsFacts ActionsFacts5.
Import ListNotations.
Local Open Scope string_scope.
Local Open Scope Z_scope.

Section Copulas.
Variable ord : list (option connector * list term) -> list (option connector * list term).
Variable fresh : Interning.world -> Z.
Hypothesis permutes : forall m, Permutation (ord m) m.

Lemma lone_dissolved st c l : st = ExtensionalSet \/ st = IntensionalSet -> set_like c -> c <> st ->
  ascending l -> Forall var_free l -> compound ord false st [Comp c l] = Ok (Comp st l).
Proof.
  intros C SL N As V.
  assert (K : category (Comp c l) = Some c).
  { apply set_like_iff in SL. cbn [category]. rewrite SL. reflexivity. }
  assert (E : con_eqb c st = false).
  { destruct (con_eqb c st) eqn:X; [|reflexivity]. apply con_eqb_eq in X. contradiction. }
  assert (E' : con_eqb st c = false) by (rewrite con_eqb_sym; exact E).
  assert (R : is_reducible st = true /\ is_commutative st = true) by (destruct C as [->| ->]; split; reflexivity).
  destruct R as [R1 R2].
  assert (Id : terms_set l = l) by (apply terms_set_id; [apply ascending_sorted; exact As|apply Forall_vf; exact V]).
  unfold compound, compound_of_terms. rewrite R2.
  assert (M : mk_terms true [Comp c l] = [Comp c l]) by reflexivity. rewrite M.
  unfold fuel_for. cbn [compound_fuel]. unfold preprocess. rewrite R1, R2. cbn [negb].
  assert (F : flatten_set st [Comp c l] = [Comp c l]).
  { unfold flatten_set. cbn [flat_map has_connector]. rewrite E. reflexivity. }
  rewrite F. assert (G : categories [Comp c l] = [(Some c, [Comp c l])]).
  { unfold categories. cbn [fold_left]. rewrite K. reflexivity. }
  rewrite G. assert (O : ord [(Some c, [Comp c l])] = [(Some c, [Comp c l])]).
  { apply Permutation_length_1_inv. apply Permutation_sym. apply permutes. }
  rewrite O. cbn [norm_all norm_entry].
  assert (MC : merge_compounds st c [Comp c l] = Ok None).
  { clear -C N. destruct C as [->| ->]; destruct c; try reflexivity; exfalso; apply N; reflexivity. }
  rewrite MC. cbn [bind map app components List.length Nat.ltb Nat.leb].
  assert (S4 : step4 st [(Some c, l)] = Ok (st, l)).
  { unfold step4. rewrite Id. destruct C as [->| ->]; destruct c; reflexivity. }
  rewrite S4. cbn [bind]. rewrite R2. unfold mk_terms. rewrite Id. reflexivity.
Qed.

Lemma lone_same st l : st = ExtensionalSet \/ st = IntensionalSet -> tidy (Comp st l) ->
  compound ord false st [Comp st l] = Ok (Comp st l).
Proof.
  intros C T. assert (SL : set_like st) by (destruct C as [->| ->]; constructor).
  pose proof (rebuild_tidy ord false st l permutes SL T) as R.
  destruct (tidy_components st l SL T) as [F _].
  assert (Hc : is_commutative st = true) by (apply set_like_iff; exact SL).
  assert (Id : terms_set l = l)
    by (apply terms_set_id; [apply ascending_sorted, F|apply Forall_vf, F]).
  unfold compound, mk_terms in *. rewrite Hc in *. rewrite Id in R.
  rewrite compound_of_terms_eq in * by exact permutes.
  assert (E : flatten_set st (terms_set [Comp st l]) = flatten_set st l).
  { unfold flatten_set. rewrite terms_set_one. cbn [flat_map has_connector components].
    assert (X : con_eqb st st = true) by (apply con_eqb_eq; reflexivity). rewrite X, app_nil_r.
    change (terms_set l = terms_set (expand_seq st l)). rewrite expand_none; [reflexivity|].
    exact (fits_unlike _ _ F). }
  unfold preprocess in *. rewrite Hc, E. rewrite Hc in R.
  rewrite (commutative_reducible st Hc) in *. exact R.
Qed.

Lemma into_set_built st t u : st = ExtensionalSet \/ st = IntensionalSet -> into_set st t u ->
  compound ord false st [t] = Ok u.
Proof.
  intros C [(N & ->)|[(c & l & -> & SL & D & As & V & ->)|(l & -> & T & ->)]].
  - apply (lone_set ord permutes); assumption.
  - apply lone_dissolved; assumption.
  - apply lone_same; assumption.
Qed.

Lemma statement_wrapped e c st a b st1 st2 s p s' p' : In (e, c) copula_actions ->
  transform ord fresh st a = Ok (st1, VTerm s) -> transform ord fresh st1 b = Ok (st2, VTerm p) ->
  (wraps_subject c -> into_set ExtensionalSet s s') -> (~ wraps_subject c -> s' = s) ->
  (wraps_predicate c -> into_set IntensionalSet p p') -> (~ wraps_predicate c -> p' = p) ->
  transform ord fresh st (Node "statement" [a; Node e []; b]) =
    Ok (st2, VTerm (Stmt (unsugared c) s' p')).
Proof.
  intros I A B Sw Sn Pw Pn. rewrite transform_node. cbn [transform_all]. rewrite A. cbn [bind].
  rewrite (copula_value _ _ _ _ _ I). cbn [bind]. rewrite B. cbn [bind].
  change (call ord fresh "statement" st2 (Some [VTerm s; VCopula c; VTerm p])) with
    (make_statement ord st2 (Some [VTerm s; VCopula c; VTerm p])).
  unfold make_statement. cbn [all_args bind arg nth_error as_term as_copula].
  assert (Ns : ~ wraps_subject c -> s' = s) by exact Sn. assert (Np : ~ wraps_predicate c -> p' = p) by exact Pn.
  destruct c; try (rewrite Ns by (intros [X|X]; discriminate X); rewrite Np by (intros [X|X]; discriminate X); reflexivity).
  - rewrite Np by (intros [X|X]; discriminate X).
    rewrite (into_set_built ExtensionalSet s s'); [reflexivity|left; reflexivity|apply Sw; left; reflexivity].
  - rewrite Ns by (intros [X|X]; discriminate X).
    rewrite (into_set_built IntensionalSet p p'); [reflexivity|right; reflexivity|apply Pw; left; reflexivity].
  - rewrite (into_set_built ExtensionalSet s s'); [|left; reflexivity|apply Sw; right; reflexivity]. cbn [bind].
    rewrite (into_set_built IntensionalSet p p'); [reflexivity|right; reflexivity|apply Pw; right; reflexivity].
Qed.
End Copulas.
