(* The facts of the semantic actions in the form of the properties. *)
From Coq Require Import ZArith String Ascii List Bool Reals Lra Lia Permutation.
From Flocq Require Import Core BinarySingleNaN.
From Verif Require Import Base Enums Term Compound CompoundSpec Float Truth.
From Verif Require Import Parser ParserCases Actions ActionsSpec ActionsFacts3 ActionsFacts5 ActionsCases.
Import ListNotations.
Open Scope string_scope.
Open Scope Z_scope.
Open Scope list_scope.

Lemma parsed_budget ord fresh room input trees left st st' vs :
  (match room with Some n => 1 <= n | None => True end)%nat ->
  parse room [] input = Ok (Accepted trees, left) ->
  transform_all ord fresh st trees = Ok (st', vs) ->
  exists n tk, trees = [n] /\ vs = [VTask tk] /\ budget_told n tk.
Proof.
  intros R P T. destruct (parsed_task _ _ _ _ _ _ _ _ _ R P T) as (n & tk & E1 & E2 & B & _).
  exists n, tk. exact (conj E1 (conj E2 B)).
Qed.

Lemma parsed_truth ord fresh room input trees left st st' vs :
  (match room with Some n => 1 <= n | None => True end)%nat ->
  parse room [] input = Ok (Accepted trees, left) ->
  transform_all ord fresh st trees = Ok (st', vs) ->
  exists n tk, trees = [n] /\ vs = [VTask tk] /\ truth_told n tk.
Proof.
  intros R P T. destruct (parsed_task _ _ _ _ _ _ _ _ _ R P T) as (n & tk & E1 & E2 & _ & B).
  exists n, tk. exact (conj E1 (conj E2 B)).
Qed.

Lemma dissolving : exists input a b s p st1 st2 l left,
  parse allocated [] input =
    Ok (Accepted [Node "task" [Node "judgement" [Node "statement" [a; Node "instance" []; b]]]], left) /\
  transform id_ord bump blank_state a = Ok (st1, VTerm s) /\
  transform id_ord bump blank_state (Node "statement" [a; Node "instance" []; b]) =
    Ok (st2, VTerm (Stmt Inheritance (Comp ExtensionalSet l) p)) /\
  ~ In s l.
Proof.
  destruct dissolved as (st1 & st2 & H1 & H2).
  eexists _, _, _, _, _, st1, st2, _, _. split; [exact dissolved_accepted|].
  split; [exact H1|]. split; [exact H2|].
  intros [H|[H|H]]; [discriminate H|discriminate H|destruct H].
Qed.

Lemma stale_history : exists inputs st left thrown input left',
  history id_ord bump allocated blank_state [] inputs = Ok (st, left, thrown) /\
  parse allocated left input = Ok (Rejected, left') /\
  exists st', parse_task id_ord bump allocated st left input = Ok (st', left', None, true).
Proof.
  destruct stale as (st & left & b & left' & H).
  exists [tiny], st, left, b, "<a", left'. exact H.
Qed.

Lemma certain_value : exists st' tk t, transform_all id_ord bump blank_state certain_tree = Ok (st', [VTask tk]) /\
  truth_of (sentence_of tk) = Some t.
Proof.
  pose proof certain as C. unfold confidence_of in C.
  destruct (transform_all id_ord bump blank_state certain_tree) as [[st' [|[] [|]]]| | |]; try discriminate C.
  destruct (truth_of (sentence_of t)) as [tr|] eqn:E; [|discriminate C].
  exists st', t, tr. split; [reflexivity|exact E].
Qed.

Lemma certain_task : exists input trees left st' tk t,
  parse allocated [] input = Ok (Accepted trees, left) /\
  transform_all id_ord bump blank_state trees = Ok (st', [VTask tk]) /\
  truth_of (sentence_of tk) = Some t /\
  B2R (Truth.co ieee t : float32) = 1%R.
Proof.
  destruct certain_value as (st' & tk & t & T & E).
  eexists _, certain_tree, _, st', tk, t. split; [exact certain_accepted|]. split; [exact T|]. split; [exact E|].
  pose proof certain as C. unfold confidence_of in C. rewrite T, E in C.
  assert (Q : B2SF (Truth.co ieee t : float32) = SpecFloat.S754_finite false 8388608 (-23)) by congruence.
  rewrite <- SF2R_B2SF, Q. unfold SF2R, F2R. cbn [cond_Zopp Fnum Fexp bpow].
  change (Zpower_pos radix2 23) with 8388608. lra.
Qed.
