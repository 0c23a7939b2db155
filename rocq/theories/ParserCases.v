(* Inputs showing that the hypotheses of the parser's properties can be met,
   and inputs that refute some of the properties. *)
From Coq Require Import ZArith String Ascii List Bool Lia.
From Verif Require Import Base Tables Parser ParserSpec Grammar.
Import ListNotations.
Open Scope string_scope.
Open Scope list_scope.
Open Scope Z_scope.

Definition sample : string := "$0.5;0.5;0.5$ <(&, [red], bird) --> animal>. :|: %1.0;0.9%".

Definition sample_tree : list ast :=
  [Node "task" [
    Node "budget" [Leaf "priority" "0.5"; Leaf "durability" "0.5"; Leaf "quality" "0.5"];
    Node "judgement" [
      Node "statement" [
        Node "compound_term" [Node "multi_prefix" [
          Node "con_extensional_intersection" [];
          Node "compound_term" [Node "set" [
            Node "con_int_set" []; Node "atom_term" [Leaf "string_raw" "red"]]];
          Node "atom_term" [Leaf "string_raw" "bird"]]];
        Node "inheritance" []; Node "atom_term" [Leaf "string_raw" "animal"]];
      Node "tense_present" [];
      Node "truth" [Leaf "frequency" "1.0"; Leaf "confidence" "0.9"]]]].

Lemma sample_accepted : parse allocated [] sample = Ok (Accepted sample_tree, []).
Proof. vm_compute. reflexivity. Qed.

Lemma sample_not_accepted : parse allocated [] "<bird --> " = Ok (Rejected, []).
Proof. vm_compute. reflexivity. Qed.

Fixpoint times (n : nat) (s : string) : string :=
  match n with O => "" | S n' => (s ++ times n' s)%string end.

(* 124 characters; and a well-formed deeper input. *)
Definition too_deep : string := (times 122 "{" ++ "a}")%string.
Definition deep_task : string := (times 122 "{" ++ "a" ++ times 122 "}" ++ ".")%string.

Lemma overflow_124 : String.length too_deep = 124%nat /\ parse allocated [] too_deep = UB.
Proof. vm_compute. split; reflexivity. Qed.

Lemma overflow_task : parse allocated [] deep_task = UB /\
  exists trees, parse unlimited [] deep_task = Ok (Accepted trees, []).
Proof. split; [vm_compute; reflexivity|]. eexists. vm_compute. reflexivity. Qed.

(* A reached configuration that is about to reduce. *)
Fixpoint after_steps (n : nat) (c : config) : option config :=
  match n with
  | O => Some c
  | S n' => match step c with Ok (inl c') => after_steps n' c' | _ => None end
  end.

Lemma after_steps_reached room left input : forall n c c', reached room left input c ->
  after_steps n c = Some c' -> reached room left input c'.
Proof.
  induction n as [|n IH]; intros c c' R E; cbn [after_steps] in E.
  - inversion E; subst; exact R.
  - destruct (step c) as [[c1|]| | |] eqn:S1; try discriminate.
    eapply IH; [|exact E]. eapply R_step; eassumption.
Qed.

Lemma reducing_case : exists c i, reached unlimited [] "<a --> b>." c /\ next c = Reduce i /\
  (5 < length (stack c))%nat.
Proof.
  destruct (after_steps 41 (start unlimited [] "<a --> b>.")) as [c|] eqn:E; [|vm_compute in E; discriminate].
  assert (R : reached unlimited [] "<a --> b>." c) by (eapply after_steps_reached; [constructor|exact E]).
  vm_compute in E. inversion E; subst. 
  eexists _, _. split; [exact R|]. split; [reflexivity|cbn; lia].
Qed.

(* The derivation of "a.". *)
Definition word_tree : tree :=
  Derived 269 [Derived 211 [];
    Derived 206 [
      Derived 3 [Derived 2 [];
        Derived 6 [
          Derived 4 [Derived 64 [Derived 205 [Derived 204 [Derived 228 [Token 3 ["a"%char]; Derived 211 []]]]]];
          Derived 212 [Token 55 ["."%char]; Derived 211 []]; Derived 9 []; Derived 12 []]];
      Token 0 []]].

Ltac derive :=
  match goal with
  | |- derivation (Token _ _) => apply D_token; [lia|]
  | |- derivation (Derived _ _) => eapply D_derived; [reflexivity|reflexivity|]
  | |- Forall _ _ => constructor
  end.

Lemma word_derived : derivation word_tree.
Proof.
  unfold word_tree. repeat derive.
  - apply (M_cat (Except (map (fun x => (x, x)) special)) _ ["a"%char] []).
    + apply M_except; [reflexivity|discriminate].
    + apply M_none.
  - change (lexeme 55) with (chr 46). apply M_range. reflexivity.
  - change (lexeme 0) with Eps. constructor.
Qed.

Definition tab : ascii := ascii_of_nat 9.

(* A tab after the word becomes part of it. *)
Lemma tab_changes :
  lexemes word_tree = [["a"%char]; ["."%char]] /\
  parse unlimited [] "a." = Ok (Accepted (projection word_tree), []) /\
  exists trees, parse unlimited [] (string_of_list_ascii (["a"%char] ++ [tab] ++ ["."%char])) = Ok (Accepted trees, []) /\
    trees <> projection word_tree.
Proof.
  split; [reflexivity|]. split; [vm_compute; reflexivity|].
  eexists. split; [vm_compute; reflexivity|]. vm_compute. discriminate.
Qed.

Lemma blanks_refuted : exists t ws1 ws2, derivation t /\ root t = 59 /\
  lexemes t = ws1 ++ ws2 /\ ws1 <> [] /\
  parse unlimited [] (string_of_list_ascii (concat ws1 ++ concat ws2)) = Ok (Accepted (projection t), []) /\
  parse unlimited [] (string_of_list_ascii (concat ws1 ++ [ascii_of_nat 9] ++ concat ws2))
    <> Ok (Accepted (projection t), []).
Proof.
  destruct tab_changes as (L & P & trees & Q & N).
  exists word_tree, [["a"%char]], [["."%char]]. split; [exact word_derived|]. split; [reflexivity|].
  split; [exact L|]. split; [discriminate|]. split; [exact P|].
  intros E. change (concat [["a"%char]] ++ [ascii_of_nat 9] ++ concat [["."%char]])
    with (["a"%char] ++ [tab] ++ ["."%char]) in E. rewrite Q in E. inversion E. contradiction.
Qed.

(* A text in which spaces can be put. *)
Lemma no_tabs : Forall (fun c => code c <> 9) (line sample).
Proof. unfold sample. cbn [line]. repeat constructor; vm_compute; discriminate. Qed.
