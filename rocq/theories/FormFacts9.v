(* The meaning of a form without operators is unique. *)
From Coq Require Import ZArith String Ascii List Bool Lia.
From Verif Require Import Base Enums Term Compound NumeralSpec ActionsSpec.
From Verif Require Import ActionsFacts4 Forms FormFacts2 FormFacts5 FormFacts6 FormFacts8.
From Verif Require Import Interning.
Import ListNotations.
Open Scope string_scope.
Open Scope list_scope.
Open Scope Z_scope.

Lemma whole_unique s n m : whole s n -> whole s m -> n = m.
Proof.
  intros A B. inversion A; subst; inversion B; subst; try reflexivity.
  - exfalso. inversion H0; subst. unfold decimal_digit in *. cbn in *. lia.
  - exfalso. inversion H2; subst. unfold decimal_digit in *. cbn in *. lia.
Qed.

Lemma occurrence_unique f k s i j : by_occurrence f k s i -> by_occurrence f k s j -> i = j.
Proof.
  intros (a & -> & A) (b & -> & B). f_equal. pose proof (firsts_NoDup (variables k f)) as N.
  rewrite NoDup_nth_error in N. apply N; [|congruence]. apply nth_error_Some. congruence.
Qed.

Lemma occurrence_name f k s t i : by_occurrence f k s i -> by_occurrence f k t i -> s = t.
Proof. intros (a & E & A) (b & F & B). assert (a = b) by lia. congruence. Qed.

Section Unique.
Variable ord : list (option connector * list term) -> list (option connector * list term).
Variable atom : string -> Z -> Prop.
Variable numbered : vkind -> string -> Z -> Prop.
Hypothesis Nu : forall k s i j, numbered k s i -> numbered k s j -> i = j.

Lemma related_unique c s p t t' : related ord c s p t -> related ord c s p t' -> t = t'.
Proof.
  intros A B. inversion A; subst; inversion B; subst; try reflexivity;
    try (exfalso; match goal with H : ~ wraps_subject _ |- _ => apply H; unfold wraps_subject; auto; fail
                             | H : ~ wraps_predicate _ |- _ => apply H; unfold wraps_predicate; auto; fail end); congruence.
Qed.

Lemma means_unique f : (forall s a b, In s (words f) -> atom s a -> atom s b -> a = b) -> operators f = [] ->
  forall t t', means ord atom numbered f t -> means ord atom numbered f t' -> t = t'.
Proof using Nu.
  assert (X : forall l, Forall (fun f => (forall s a b, In s (words f) -> atom s a -> atom s b -> a = b) -> operators f = [] ->
      forall t t', means ord atom numbered f t -> means ord atom numbered f t' -> t = t') l ->
    (forall s a b, In s (concat (map words l)) -> atom s a -> atom s b -> a = b) -> concat (map operators l) = [] ->
    forall ts ts', all_mean ord atom numbered l ts -> all_mean ord atom numbered l ts' -> ts = ts').
  { clear f. intros l F. induction F as [|f l H _ IH]; intros A O ts ts' M M'; inversion M; inversion M'; subst; [reflexivity|].
    cbn [map concat] in A, O. apply app_eq_nil in O as (O1 & O2). f_equal.
    - eapply H; [|exact O1|eassumption|eassumption]. intros s a b I. apply A, in_or_app. left. exact I.
    - eapply IH; [|exact O2|eassumption|eassumption]. intros s a b I. apply A, in_or_app. right. exact I. }
  induction f as [s|k s|s|s|x c a b Ia Ib|s l I|s l I|c l I|f I|c l I|l I|c l I|c l I] using form_ind';
    intros A O t t' M M'; inversion M as [| | | | | | |? c1 l1 ts1 ? As1 Al1 Co1]; subst; try discriminate As1;
    inversion M' as [| | | | | | |? c2 l2 ts2 ? As2 Al2 Co2]; subst; try discriminate As2.
  - f_equal. apply (A s); [left; reflexivity|assumption|assumption].
  - f_equal. eapply Nu; eassumption.
  - discriminate O.
  - f_equal. eapply whole_unique; eassumption.
  - cbn [words operators] in A, O. apply app_eq_nil in O as (O1 & O2).
    match goal with H : means _ _ _ a ?u, H' : means _ _ _ a ?v |- _ => assert (u = v)
      by (apply Ia; [let h := fresh in intros ? ? ? h; apply A, in_or_app; left; exact h|exact O1|exact H|exact H']) end. subst.
    match goal with H : means _ _ _ b ?u, H' : means _ _ _ b ?v |- _ => assert (u = v)
      by (apply Ib; [let h := fresh in intros ? ? ? h; apply A, in_or_app; right; exact h|exact O2|exact H|exact H']) end. subst.
    eapply related_unique; eassumption.
  - discriminate O.
  - discriminate O.
  - injection As1 as <- <-. injection As2 as <- <-. assert (ts1 = ts2) by (eapply X; eassumption). subst. congruence.
  - injection As1 as <- <-. injection As2 as <- <-.
    assert (ts1 = ts2); [|subst; congruence].
    inversion Al1 as [|? ? ? ? M1 N1]; subst. inversion N1; subst. inversion Al2 as [|? ? ? ? M2 N2]; subst. inversion N2; subst.
    f_equal. eapply I; eassumption.
  - injection As1 as <- <-. injection As2 as <- <-. assert (ts1 = ts2) by (eapply X; eassumption). subst. congruence.
  - injection As1 as <- <-. injection As2 as <- <-. assert (ts1 = ts2) by (eapply X; eassumption). subst. congruence.
  - injection As1 as <- <-. injection As2 as <- <-. assert (ts1 = ts2) by (eapply X; eassumption). subst. congruence.
  - injection As1 as <- <-. injection As2 as <- <-. assert (ts1 = ts2) by (eapply X; eassumption). subst. congruence.
Qed.
End Unique.

Theorem meaning_unique ord w ops f t t' : in_order w ops -> proper f -> operators f = [] ->
  means ord (handed_out w) (by_occurrence f) f t -> means ord (handed_out w) (by_occurrence f) f t' -> t = t'.
Proof.
  intros O P N. apply means_unique; [apply occurrence_unique| |exact N].
  intros s a b I. apply (order_unique w ops s a b O). apply word_plain_name.
  exact (proj1 (words_words f (or_introl P)) s I).
Qed.

Theorem names_atoms w ops n m a b : in_order w ops -> ~ operator_name n -> ~ operator_name m ->
  handed_out w n a -> handed_out w m b -> (n = m <-> a = b).
Proof.
  intros O N M A B. split; intros ->.
  - eapply order_unique; eassumption.
  - eapply order_distinct; eassumption.
Qed.
