(* The defaults by the kind of sentence that are never used. *)
From Coq Require Import ZArith String Ascii List Bool Reals Lia.
From Flocq Require Import Core BinarySingleNaN.
From Verif Require Import Base Enums Term Compound Float FloatFacts Truth Numeral NumeralSpec NumeralFacts.
From Verif Require Import Parser ParserCases Actions ActionsSpec AstFacts ActionsFacts ActionsFacts2 ActionsFacts3 ActionsFacts6
  ActionsCases DefaultsSpec.
Import ListNotations.
Open Scope string_scope.
Open Scope Z_scope.
Open Scope list_scope.

Lemma with_defaults st a : task_with default_priority st a = make_task st a.
Proof.
  unfold task_with, make_task. destruct (all_args a) as [l| | |]; cbn [bind]; try reflexivity.
  destruct (if Nat.eqb (List.length l) 1 then _ else _) as [b| | |]; cbn [bind]; try reflexivity.
  destruct (bind (arg l _) as_sentence) as [s| | |]; cbn [bind]; try reflexivity.
  unfold finish_with, finish_budget. destruct (punct s); reflexivity.
Qed.

Lemma finish_set ps b s : unset64 (priority b) = false -> finish_with ps b s = finish_budget b s.
Proof.
  intros U. unfold finish_with, finish_budget, fill_budget. rewrite U. destruct (punct s); reflexivity.
Qed.

Lemma priorities_unused ord fresh room input trees left st st' vs :
  (match room with Some n => 1 <= n | None => True end)%nat ->
  parse room [] input = Ok (Accepted trees, left) ->
  transform_all ord fresh st trees = Ok (st', vs) ->
  exists kids st1 ws tk, trees = [Node "task" kids] /\ transform_all ord fresh st kids = Ok (st1, ws) /\ vs = [VTask tk] /\
    forall priorities, task_with priorities st1 (Some ws) = Ok (st', VTask tk).
Proof.
  intros R P T. destruct (accepted_good _ _ _ _ R P) as (n & -> & G & L).
  destruct (all_one _ _ _ _ _ _ T) as (v & -> & H). clear T P.
  destruct (task_shape _ G L) as (b & s & -> & GS & LS & BS).
  rewrite transform_node in H.
  destruct (transform_all ord fresh st (b ++ [s])) as [[st1 vs]| | |] eqn:T; cbn [bind] in H; try discriminate H.
  assert (H' : make_task st1 (Some vs) = Ok (st', v)) by (destruct b; exact H). clear H.
  assert (K : exists tk, v = VTask tk).
  { unfold make_task in H'. cbn [all_args bind] in H'.
    destruct (if Nat.eqb (List.length vs) 1 then _ else _) as [bb| | |]; cbn [bind] in H'; try discriminate H'.
    destruct (bind (arg vs _) as_sentence) as [ss| | |]; cbn [bind] in H'; try discriminate H'.
    destruct (finish_budget _ _) as [b'| | |]; cbn [bind] in H'; try discriminate H'.
    destruct (ok_pair _ _ _ _ H') as [_ <-]. eexists. reflexivity. }
  destruct K as (tk & ->). exists (b ++ [s]), st1, vs, tk. split; [reflexivity|]. split; [exact T|]. split; [reflexivity|].
  intros ps. rewrite <- H'. rewrite all_app in T.
  destruct (transform_all ord fresh st b) as [[st2 us]| | |] eqn:T1; cbn [bind] in T; try discriminate T.
  destruct (transform_all ord fresh st2 [s]) as [[st3 ws]| | |] eqn:T2; cbn [bind] in T; try discriminate T.
  destruct (ok_pair _ _ _ _ T) as [<- <-]. clear T.
  destruct (all_one _ _ _ _ _ _ T2) as (w & -> & TS).
  unfold task_with, make_task. cbn [all_args bind].
  destruct BS as [->|(bn & -> & GB & LB)].
  - cbn in T1. injection T1 as <- <-. cbn [app List.length Nat.eqb arg nth_error bind].
    destruct (as_sentence w) as [sn| | |]; cbn [bind]; [|reflexivity..].
    rewrite finish_set; [reflexivity|]. vm_compute. reflexivity.
  - destruct (all_one _ _ _ _ _ _ T1) as (bv & -> & TB).
    destruct (budget_value _ _ _ _ _ _ GB LB TB) as (p & d & q & x & y & z & -> & DQ & -> & -> & KP & PX & KY & KZ).
    cbn [app List.length Nat.eqb arg nth_error bind as_budget].
    destruct (as_sentence w) as [sn| | |]; cbn [bind]; [|reflexivity..]. rewrite finish_set; [reflexivity|].
    cbn [priority new_budget]. apply unset_positive64, to64_sign, to32_sign, PX.
Qed.

Definition plain_question : string := "<a --> b>?".
Definition question_tree : list ast :=
  [Node "task" [Node "question" [Node "statement" [Node "atom_term" [Leaf "string_raw" "a"]; Node "inheritance" [];
     Node "atom_term" [Leaf "string_raw" "b"]]]]].

Lemma question_accepted : parse allocated [] plain_question = Ok (Accepted question_tree, []).
Proof. vm_compute. reflexivity. Qed.

Lemma question_evaluates : exists st' vs, transform_all id_ord bump blank_state question_tree = Ok (st', vs).
Proof. apply evaluates_exists. vm_compute. reflexivity. Qed.

Lemma eight_nine : to64 (literal 8 10) <> to64 (literal 9 10).
Proof. intros H. apply (f_equal B2SF) in H. vm_compute in H. discriminate H. Qed.

Lemma defaults_missing :
  ~ (forall ord fresh input s left st st' tk,
      parse allocated [] input = Ok (Accepted [Node "task" [s]], left) ->
      transform_all ord fresh st [Node "task" [s]] = Ok (st', [VTask tk]) ->
      priority (budget_of tk) = to64 (default_priority (punct (sentence_of tk)))
      /\ durability (budget_of tk) = to64 (default_durability (punct (sentence_of tk)))
      /\ quality (budget_of tk) = default_quality (sentence_of tk)).
Proof.
  intros H. assert (R : (1 <= 128)%nat) by lia. destruct question_evaluates as (st' & vs & E).
  destruct (parsed_budget id_ord bump allocated plain_question _ _ _ _ _ R question_accepted E)
    as (n & tk & N & -> & B).
  destruct (H id_ord bump plain_question _ _ blank_state st' tk question_accepted E) as [Hp _].
  injection N as <-. destruct B as (kids & B). cbv zeta in B.
  assert (Q : punct (sentence_of tk) = Question).
  { destruct B as [[B _]|(p & d & q & fp & fd & B & _)]; [|discriminate B].
    destruct (punct (sentence_of tk)); try discriminate B. reflexivity. }
  destruct B as [[_ B]|(p & d & q & fp & fd & B & _)]; [|discriminate B].
  rewrite Q, B in Hp. exact (eight_nine Hp).
Qed.

Lemma eight_five : to64 (literal 8 10) <> to64 (literal 5 10).
Proof. intros H. apply (f_equal B2SF) in H. vm_compute in H. discriminate H. Qed.

Lemma without_budget ord fresh room input s left st st' vs :
  (match room with Some n => 1 <= n | None => True end)%nat ->
  parse room [] input = Ok (Accepted [Node "task" [s]], left) ->
  transform_all ord fresh st [Node "task" [s]] = Ok (st', vs) ->
  exists tk, vs = [VTask tk]
    /\ (priority (budget_of tk) = to64 (default_priority (punct (sentence_of tk))) <-> punct (sentence_of tk) = Judgement)
    /\ durability (budget_of tk) <> to64 (default_durability (punct (sentence_of tk))).
Proof.
  intros R P T. destruct (parsed_budget _ _ _ _ _ _ _ _ _ R P T) as (n & tk & N & -> & B).
  exists tk. split; [reflexivity|]. injection N as <-. destruct B as (kids & B). cbv zeta in B.
  destruct B as [[_ B]|(p & d & q & fp & fd & B & _)]; [|discriminate B]. rewrite B. cbn [priority durability].
  destruct (punct (sentence_of tk)); cbn [default_priority default_durability];
    (split; [split; intros H; first [reflexivity | discriminate H | exfalso; exact (eight_nine H)]
            | first [exact eight_five | exact eight_nine]]).
Qed.
