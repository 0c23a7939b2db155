(* A task that survives printing and reading, and a term that does not. *)
From Coq Require Import ZArith String Ascii List Bool Lia Reals Lra Permutation.
From Flocq Require Import Core BinarySingleNaN.
From Verif Require Import Base Enums Term Maps Compound Float FloatFacts Parser ParserSpec Actions ActionsSpec ActionsCases PrinterSpec Printer.
From Verif Require Import Forms FormCases Roundtrip RoundtripFacts RoundtripFacts3.
From Verif Require Interning Evidence EvidenceSpec Truth.
Import ListNotations.
Open Scope string_scope.
Open Scope list_scope.
Open Scope Z_scope.

(** * A term renumbered *)

Definition swapped_check (input : string) : bool :=
  match parse_task id_ord careful_fresh allocated blank_state [] input with
  | Ok (st, [], Some (VTask tk), false) =>
      match interpret (dictionary_of (Interning.tab (atoms st))) false (content (sentence_of tk)) with
      | Ok s =>
          match parse_task id_ord careful_fresh allocated st [] (s ++ ".") with
          | Ok (_, [], Some (VTask tk'), false) =>
              match teq (content (sentence_of tk')) (content (sentence_of tk)) with Ok false => true | _ => false end
          | _ => false
          end
      | _ => false
      end
  | _ => false
  end.

Lemma swapped_checked : swapped_check "<(&&, <$x --> a>, <b --> $y>) ==> <$x --> $y>>." = true.
Proof. vm_compute. reflexivity. Qed.

Lemma swapped_exists input : swapped_check input = true -> exists st tk s st' tk',
  parse_task id_ord careful_fresh allocated blank_state [] input = Ok (st, [], Some (VTask tk), false) /\
  interpret (dictionary_of (Interning.tab (atoms st))) false (content (sentence_of tk)) = Ok s /\
  parse_task id_ord careful_fresh allocated st [] (s ++ ".") = Ok (st', [], Some (VTask tk'), false) /\
  teq (content (sentence_of tk')) (content (sentence_of tk)) = Ok false.
Proof.
  unfold swapped_check. destruct (parse_task id_ord careful_fresh allocated blank_state [] input) as [[[[st l] v] th]| | |]; try discriminate.
  destruct l; try discriminate. destruct v as [[]|]; try discriminate. destruct th; try discriminate.
  destruct (interpret (dictionary_of (Interning.tab (atoms st))) false (content (sentence_of t))) as [s| | |] eqn:W; try discriminate.
  destruct (parse_task id_ord careful_fresh allocated st [] (s ++ ".")) as [[[[st' l'] v'] th']| | |] eqn:P; try discriminate.
  destruct l'; try discriminate. destruct v' as [[]|]; try discriminate. destruct th'; try discriminate.
  destruct (teq (content (sentence_of t0)) (content (sentence_of t))) as [[]| | |] eqn:T; try discriminate. intros _.
  exists st, t, s, st', t0. repeat (split; [assumption || reflexivity|]). exact T.
Qed.

(** * A task that survives *)

Definition some_world : Interning.world :=
  Interning.World (Interning.Tab [(-845889581, "c"); (-845889584, "b"); (-845889583, "a")] [(-845889581, 3); (-845889584, 2); (-845889583, 1)]
      [("c", -845889581); ("b", -845889584); ("a", -845889583)] [(-845889581, 1); (-845889584, 1); (-845889583, 1)])
    [(3, 3); (2, 2); (1, 1)] 4
    [Interning.Hd 1 "a"; Interning.Hd 3 "c"; Interning.Hd 2 "b"; Interning.Hd 1 "a"].

Definition some_state : state := State [] [] [] some_world [] (EvidenceSpec.start 0) [].

Lemma some_order : in_order (atoms some_state) (operations some_state).
Proof.
  constructor.
  - intros n k _. cbn [some_state atoms some_world Interning.tab Interning.inv lookup].
    destruct (String.eqb n "c") eqn:C; [|destruct (String.eqb n "b") eqn:B; [|destruct (String.eqb n "a") eqn:A; [|discriminate]]];
    intros H; injection H as <-; rewrite String.eqb_eq in *; subst n; eexists _, _; repeat (split; [reflexivity|]); intros [].
  - intros n a N [H|[H|[H|[H|[]]]]]; injection H as <- <-; (split; [reflexivity|]); eexists; split; reflexivity.
  - intros n a (s & ->) [H|[H|[H|[H|[]]]]]; discriminate H.
  - intros p a. cbn. destruct (p =? 3) eqn:C; [|destruct (p =? 2) eqn:B; [|destruct (p =? 1) eqn:A; [|discriminate]]]; lia.
  - cbn. lia.
Qed.

Definition some_term : term :=
  Stmt PredictiveImplication
    (Comp Conjunction [Stmt Inheritance (Atom false 1) (Atom false 2); Stmt Inheritance (Var Independent 0) (Atom false 3)])
    (Comp SequentialEvents [Stmt Inheritance (Var Independent 0) (Var Independent 1); Itv 3; Var Dependent 0]).

Lemma some_name s a : In (Interning.Hd a s) (Interning.handles some_world) -> legible id_ord some_world (Atom false a).
Proof.
  intros H. apply (G_atom _ _ a s); [exact H|].
  cbn in H. destruct H as [H|[H|[H|[H|[]]]]]; injection H as <- <-; split; try discriminate;
  (apply Forall_cons; [split; [cbn; lia|cbn; intuition discriminate]|apply Forall_nil]).
Qed.

Lemma some_legible : legible id_ord (atoms some_state) some_term.
Proof.
  assert (A : legible id_ord some_world (Atom false 1)) by (apply (some_name "a"); cbn; auto).
  assert (B : legible id_ord some_world (Atom false 2)) by (apply (some_name "b"); cbn; auto).
  assert (C : legible id_ord some_world (Atom false 3)) by (apply (some_name "c"); cbn; auto).
  assert (V : forall k i, 0 <= i -> legible id_ord some_world (Var k i)) by (intros; constructor; assumption).
  assert (W : forall c, ~ wraps_subject c <-> ~ (c = Instance \/ c = InstanceProperty)) by (intros c; reflexivity).
  unfold some_term. cbn [atoms some_state].
  repeat match goal with
  | |- legible _ _ (Atom _ _) => assumption
  | |- legible _ _ (Var _ _) => apply V; lia
  | |- legible _ _ (Itv _) => constructor; lia
  | |- legible _ _ (Stmt _ _ _) => apply G_statement; [vm_compute; reflexivity|cbv; intuition discriminate|cbv; intuition discriminate| |]
  | |- legible _ _ (Comp _ _) => apply G_compound; [vm_compute; reflexivity|cbn; lia|vm_compute; reflexivity|]
  | |- Forall _ (_ :: _) => apply Forall_cons
  | |- Forall _ [] => apply Forall_nil
  end.
Qed.

Lemma some_numbered : left_to_right some_term.
Proof.
  intros k before i after H. destruct k; cbn in H.
  - destruct before as [|a [|b [|c [|d before]]]]; cbn in H; inversion H; subst; (split; [lia|]); intros j J; try lia; try (exfalso; lia); try (assert (j = 0) as -> by lia; cbn; auto).
  - destruct before as [|a [|b before]]; cbn in H; inversion H; subst; (split; [lia|]); intros j J; lia.
  - destruct before; discriminate H.
Qed.

Definition some_task : task :=
  Task (Budget (to64 (literal 1 2)) (to64 (literal 1 4)) (literal 7 10))
    (Sentence some_term Judgement (Some (Truth.Truth ieee (literal 3 4) (literal 3 5) (literal 1 1))) (Evidence.Stamp None (-3) 0 0 false)).

Lemma value_of {prec emax} (x : binary_float prec emax) m e : B2SF x = SpecFloat.S754_finite false m e ->
  is_finite x = true /\ Bsign x = false /\ B2R x = (IZR (Zpos m) * bpow radix2 e)%R.
Proof. destruct x; intros H; try discriminate H. injection H as -> -> ->. repeat split; reflexivity. Qed.

Lemma some_showable : showable some_task.
Proof.
  constructor; cbn [some_task sentence_of budget_of punct truth_of priority durability quality].
  - intros _. eexists. split; [reflexivity|]. cbn [Truth.fr Truth.co].
    destruct (value_of (literal 3 4) 12582912 (-24) ltac:(vm_compute; reflexivity)) as (F & S & V).
    destruct (value_of (literal 3 5) 10066330 (-24) ltac:(vm_compute; reflexivity)) as (F' & _ & V').
    split; [|split; [exact F'|]].
    + split; [exact F|split; [exact S|]]. rewrite V. simpl. lra.
    + rewrite V'. simpl. lra.
  - destruct (value_of (to64 (literal 1 2)) 4503599627370496 (-53) ltac:(vm_compute; reflexivity)) as (F & S & V).
    split; [exact F|split; [exact S|]]. rewrite V. simpl. lra.
  - destruct (value_of (to64 (literal 1 4)) 4503599627370496 (-54) ltac:(vm_compute; reflexivity)) as (F & S & V).
    split; [exact F|]. rewrite V. simpl. lra.
  - destruct (value_of (literal 7 10) 11744051 (-24) ltac:(vm_compute; reflexivity)) as (F & S & V).
    split; [exact F|split; [exact S|]]. rewrite V. simpl. lra.
Qed.

Lemma some_text : interpret_task (dictionary_of (Interning.tab (atoms some_state))) false (store some_state) some_task =
  Ok "$0.50;0.25;0.70$ <(&&, <a --> b>, <$0 --> c>) =/> (&/, <$0 --> $1>, +3, #0)>. :|: %0.750;0.600%".
Proof. vm_compute. reflexivity. Qed.

(* The same task without a time. *)
Definition lasting_task : task :=
  Task (Budget (to64 (literal 1 2)) (to64 (literal 1 4)) (literal 7 10))
    (Sentence some_term Judgement (Some (Truth.Truth ieee (literal 3 4) (literal 3 5) (literal 1 1))) (Evidence.Stamp None (-3) 0 0 true)).

Lemma lasting_showable : showable lasting_task.
Proof.
  constructor; cbn [lasting_task sentence_of budget_of punct truth_of priority durability quality].
  - intros _. eexists. split; [reflexivity|]. cbn [Truth.fr Truth.co].
    destruct (value_of (literal 3 4) 12582912 (-24) ltac:(vm_compute; reflexivity)) as (F & S & V).
    destruct (value_of (literal 3 5) 10066330 (-24) ltac:(vm_compute; reflexivity)) as (F' & _ & V').
    split; [|split; [exact F'|]].
    + split; [exact F|split; [exact S|]]. rewrite V. simpl. lra.
    + rewrite V'. simpl. lra.
  - destruct (value_of (to64 (literal 1 2)) 4503599627370496 (-53) ltac:(vm_compute; reflexivity)) as (F & S & V).
    split; [exact F|split; [exact S|]]. rewrite V. simpl. lra.
  - destruct (value_of (to64 (literal 1 4)) 4503599627370496 (-54) ltac:(vm_compute; reflexivity)) as (F & S & V).
    split; [exact F|]. rewrite V. simpl. lra.
  - destruct (value_of (literal 7 10) 11744051 (-24) ltac:(vm_compute; reflexivity)) as (F & S & V).
    split; [exact F|split; [exact S|]]. rewrite V. simpl. lra.
Qed.

Lemma lasting_text : interpret_task (dictionary_of (Interning.tab (atoms some_state))) false (store some_state) lasting_task =
  Ok "$0.50;0.25;0.70$ <(&&, <a --> b>, <$0 --> c>) =/> (&/, <$0 --> $1>, +3, #0)>. %0.750;0.600%".
Proof. vm_compute. reflexivity. Qed.
