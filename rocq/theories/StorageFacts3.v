(* Proofs about the memory of the semantic actions: whole trees *)
From Coq Require Import ZArith String Ascii List Bool Lia Permutation.
From Verif Require Import Base Enums Term Terms Compound Maps Float Truth Numeral Actions ActionsSpec ActionsFacts ActionsFacts2 ActionsFacts3.
From Verif Require Import Parser AstFacts Storage StorageSpec StorageFacts StorageFacts2.
From Verif Require Interning Evidence.
Import ListNotations.
Open Scope string_scope.
Open Scope Z_scope.
Open Scope list_scope.

(* ---- values by kind ---- *)

Lemma term_kind v : kind_of v = Some KTerm -> exists t, v = VTerm t.
Proof. destruct v; intros E; try discriminate E. eexists; reflexivity. Qed.
Lemma number_kind v : kind_of v = Some KNumber -> exists x, v = VNumber x.
Proof. destruct v; intros E; try discriminate E. eexists; reflexivity. Qed.

Lemma terms_kind m : forall vs, map kind_of vs = map Some (repeat KTerm m) ->
  exists ts, vs = map VTerm ts /\ length ts = m.
Proof.
  induction m as [|m IH]; intros vs E; cbn [repeat map] in E.
  - destruct vs; [|discriminate E]. exists []. split; reflexivity.
  - destruct vs as [|v vs]; [discriminate E|]. cbn [map] in E. injection E as E1 E2.
    destruct (term_kind _ E1) as [t ->]. destruct (IH _ E2) as (ts & -> & L). exists (t :: ts).
    split; [reflexivity|]. cbn [length]. congruence.
Qed.

Lemma numbers_kind m : forall vs, map kind_of vs = map Some (repeat KNumber m) ->
  exists xs, vs = map VNumber xs /\ length xs = m.
Proof.
  induction m as [|m IH]; intros vs E; cbn [repeat map] in E.
  - destruct vs; [|discriminate E]. exists []. split; reflexivity.
  - destruct vs as [|v vs]; [discriminate E|]. cbn [map] in E. injection E as E1 E2.
    destruct (number_kind _ E1) as [t ->]. destruct (IH _ E2) as (ts & -> & L). exists (t :: ts).
    split; [reflexivity|]. cbn [length]. congruence.
Qed.

Ltac by_kind := repeat (cbn [map] in *; match goal with
  | H : map kind_of ?vs = _ :: _ |- _ =>
      destruct vs as [|? vs]; [discriminate H|]; cbn [map] in H; injection H; clear H; intros ? ?
  | H : map kind_of ?vs = [] |- _ => destruct vs as [|? vs]; [clear H|discriminate H]
  | H : kind_of ?v = Some _ |- _ => destruct v; try discriminate H; clear H
  end).

Section Trees.
Variable strict : bool.
Variable ord : list (option connector * list term) -> list (option connector * list term).
Variable fresh : Interning.world -> Z.

Definition plain (k : kind) : Prop := k <> KTime /\ k <> KTruth.

Ltac each := match goal with H : In _ _ |- _ => cbn [In] in H; repeat (destruct H as [<-|H]); [..|destruct H] end.

Lemma call_follows e ks vs : takes e ks -> map kind_of vs = map Some ks -> strict = false \/ Forall plain ks ->
  forall st ps l, stored_all ps vs l ->
  does l (pcall strict ord fresh e st (pgiven ps)) (call ord fresh e st (given vs)) same_result.
Proof.
  intros T E K.
  enough (X : exists f g, pcall strict ord fresh e = f /\ call ord fresh e = g /\ follows f g vs).
  { destruct X as (f & g & P & C & D). intros st ps l S. rewrite P, C. exact (D st ps l S). }
  destruct T.
  - by_kind. eexists _, _. split; [reflexivity|]. split; [reflexivity|]. apply follows_task.
  - by_kind. eexists _, _. split; [reflexivity|]. split; [reflexivity|]. apply follows_task_budget.
  - by_kind. each; (eexists _, _; split; [reflexivity|]; split; [reflexivity|]).
    + apply (follows_belief _ _ _ _ None None). right. reflexivity.
    + apply (follows_query _ _ _ None). right. reflexivity.
    + apply (follows_belief _ _ _ _ None None). right. reflexivity.
    + apply (follows_query _ _ _ None). right. reflexivity.
  - assert (K' : strict = false).
    { destruct K as [K|K]; [exact K|]. inversion K as [|? ? _ K']; subst. inversion K' as [|? ? K'' _]; subst. destruct K'' as [X _]. contradiction. }
    by_kind. each; (eexists _, _; split; [reflexivity|]; split; [reflexivity|]).
    + apply (follows_belief _ _ _ _ (Some _) None). left. exact K'.
    + apply (follows_query _ _ _ (Some _)). left. exact K'.
    + apply (follows_belief _ _ _ _ (Some _) None). left. exact K'.
    + apply (follows_query _ _ _ (Some _)). left. exact K'.
  - assert (K' : strict = false).
    { destruct K as [K|K]; [exact K|]. inversion K as [|? ? _ K']; subst. inversion K' as [|? ? K'' _]; subst. destruct K'' as [_ X]. contradiction. }
    by_kind. each; (eexists _, _; split; [reflexivity|]; split; [reflexivity|]);
    apply (follows_belief _ _ _ _ None (Some _)); left; exact K'.
  - assert (K' : strict = false).
    { destruct K as [K|K]; [exact K|]. inversion K as [|? ? _ K']; subst. inversion K' as [|? ? K'' _]; subst. destruct K'' as [X _]. contradiction. }
    by_kind. each; (eexists _, _; split; [reflexivity|]; split; [reflexivity|]);
    apply (follows_belief _ _ _ _ (Some _) (Some _)); left; exact K'.
  - by_kind. eexists _, _. split; [reflexivity|]. split; [reflexivity|]. apply follows_statement.
  - destruct H as (m & _ & ->). destruct vs as [|v vs]; [discriminate E|]. cbn [map] in E. injection E as E1 E2.
    destruct (term_kind _ E1) as [t ->]. destruct (terms_kind _ _ E2) as (ts & -> & _).
    eexists _, _. split; [reflexivity|]. split; [reflexivity|]. apply follows_operation1.
  - destruct H as (m & _ & ->). destruct vs as [|v vs]; [discriminate E|]. cbn [map] in E. injection E as E1 E2.
    destruct v; try discriminate E1. destruct (terms_kind _ _ E2) as (ts & -> & _).
    eexists _, _. split; [reflexivity|]. split; [reflexivity|]. apply follows_operation2.
  - by_kind. each; (eexists _, _; split; [reflexivity|]; split; [reflexivity|]);
    first [apply follows_constant; constructor | apply follows_tense].
  - by_kind. each; (eexists _, _; split; [reflexivity|]; split; [reflexivity|]);
    first [apply follows_pass_term | apply follows_pass].
  - by_kind. each; (eexists _, _; split; [reflexivity|]; split; [reflexivity|]);
    first [apply follows_atom | apply follows_operation | apply follows_variable].
  - by_kind. each; (eexists _, _; split; [reflexivity|]; split; [reflexivity|]);
    first [apply follows_interval | apply follows_time].
  - destruct H0 as (m & _ & ->). destruct vs as [|v vs]; [discriminate E|]. cbn [map] in E. injection E as E1 E2.
    destruct v; try discriminate E1. destruct (terms_kind _ _ E2) as (ts & -> & _).
    each; (eexists _, _; split; [reflexivity|]; split; [reflexivity|]); apply follows_prefix.
  - by_kind. eexists _, _. split; [reflexivity|]. split; [reflexivity|]. apply follows_negation.
  - destruct H0 as (m & M & ->). destruct (terms_kind _ _ E) as (ts & -> & L).
    assert (N : ts <> []) by (destruct ts; [cbn [length] in L; lia|discriminate]).
    each; (eexists _, _; split; [reflexivity|]; split; [reflexivity|]); apply follows_infix; exact N.
  - by_kind. eexists _, _. split; [reflexivity|]. split; [reflexivity|]. apply follows_single_prefix.
  - by_kind. eexists _, _. split; [reflexivity|]. split; [reflexivity|]. apply follows_single_infix.
  - destruct (numbers_kind _ _ E) as (xs & -> & L). rewrite <- L in H0.
    each; (eexists _, _; split; [reflexivity|]; split; [reflexivity|]);
    [apply follows_truth|apply follows_budget]; exact H0.
  - by_kind. each; (eexists _, _; split; [reflexivity|]; split; [reflexivity|]);
    first [apply follows_string | apply follows_number].
Qed.
End Trees.
