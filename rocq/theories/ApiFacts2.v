(* Python expressions and written forms. *)
From Coq Require Import ZArith String Ascii List Bool Lia Permutation.
From Verif Require Import Base Enums Term TermsFacts Compound CompoundFacts.
From Verif Require Import Maps Actions ActionsSpec PrinterSpec Forms FormFacts2 FormFacts5 FormFacts6 FormFacts8 FormFacts9 Api ApiSpec ApiFacts.
From Verif Require Import Interning InterningSpec.
From Verif Require Evidence.
Import ListNotations.
Open Scope string_scope.
Open Scope list_scope.
Open Scope Z_scope.

Scheme denotes_mut := Induction for denotes Sort Prop with all_denote_mut := Induction for all_denote Sort Prop.

(** * A form that means something is not stuck *)

Lemma inside_words g f : inside g f -> incl (words g) (words f) /\ (operators f = [] -> operators g = []).
Proof.
  assert (X : forall l f, In f l -> incl (words f) (concat (map words l)) /\ (concat (map operators l) = [] -> operators f = [])).
  { intros l h I. split.
    - intros s H. apply in_concat. exists (words h). split; [apply in_map, I|exact H].
    - intros E. destruct (operators h) as [|o r] eqn:Q; [reflexivity|]. exfalso. assert (J : In o (concat (map operators l))).
      { apply in_concat. exists (operators h). split; [apply in_map, I|rewrite Q; left; reflexivity]. }
      rewrite E in J. destruct J. }
  induction 1 as [|x c a b _ (A & B)|x c a b _ (A & B)|s l h I _ (A & B)|s l h I _ (A & B)|f' c l h As I _ (A & B)].
  - split; [apply incl_refl|auto].
  - cbn [words operators]. split; [intros s H; apply in_or_app; left; auto|]. intros E. apply app_eq_nil in E as (E & _). auto.
  - cbn [words operators]. split; [intros s H; apply in_or_app; right; auto|]. intros E. apply app_eq_nil in E as (_ & E). auto.
  - cbn [words operators]. split; [|discriminate]. destruct (X l h I) as (Y & _). intros q H. apply Y, A, H.
  - cbn [words operators]. split; [|discriminate]. destruct (X l h I) as (Y & _). intros q H. apply Y, A, H.
  - destruct (X l h I) as (Y & Z0).
    assert (W : words f' = concat (map words l) /\ operators f' = concat (map operators l)).
    { destruct f'; try discriminate As; injection As as <- <-; cbn [words operators map concat]; rewrite ?app_nil_r; split; reflexivity. }
    destruct W as (W1 & W2). rewrite W1, W2. split; [intros q H; apply Y, A, H|]. intros E. apply B, Z0, E.
Qed.

Section Stuck.
Variable ord : list (option connector * list term) -> list (option connector * list term).
Variable atom : string -> Z -> Prop.
Variable numbered : vkind -> string -> Z -> Prop.

Lemma all_mean_in l : forall ts f, all_mean ord atom numbered l ts -> In f l -> exists t, means ord atom numbered f t.
Proof. induction l as [|x l IH]; intros ts f H I; [destruct I|]. inversion H; subst. destruct I as [ <-|I]; eauto. Qed.

Lemma inside_means g f : inside g f -> (exists t, means ord atom numbered f t) -> exists t, means ord atom numbered g t.
Proof.
  induction 1 as [|x c a b _ IH|x c a b _ IH|s l h I _ IH|s l h I _ IH|f' c l h As I _ IH]; intros (t & M).
  - eauto.
  - apply IH. inversion M; subst; [eauto|discriminate].
  - apply IH. inversion M; subst; [eauto|discriminate].
  - apply IH. inversion M; subst; [eapply all_mean_in; eassumption|discriminate].
  - apply IH. inversion M; subst; [eapply all_mean_in; eassumption|discriminate].
  - apply IH. inversion M; subst; try discriminate As.
    match goal with H : assembly f' = Some _ |- _ => rewrite As in H; injection H as <- <- end. eapply all_mean_in; eassumption.
Qed.

Hypothesis Nu : forall k s i j, numbered k s i -> numbered k s j -> i = j.

Lemma all_mean_unique l : (forall s a b, In s (concat (map words l)) -> atom s a -> atom s b -> a = b) -> concat (map operators l) = [] ->
  forall ts ts', all_mean ord atom numbered l ts -> all_mean ord atom numbered l ts' -> ts = ts'.
Proof using Nu.
  induction l as [|f l IH]; intros A O ts ts' M M'; inversion M; inversion M'; subst; [reflexivity|].
  cbn [map concat] in A, O. apply app_eq_nil in O as (O1 & O2). f_equal.
  - eapply (means_unique ord atom numbered Nu); [|exact O1|eassumption|eassumption]. intros s a b I. apply A, in_or_app. left. exact I.
  - eapply IH; [|exact O2|eassumption|eassumption]. intros s a b I. apply A, in_or_app. right. exact I.
Qed.

Lemma means_free f : (forall s a b, In s (words f) -> atom s a -> atom s b -> a = b) -> operators f = [] ->
  (exists t, means ord atom numbered f t) -> ~ stuck ord atom numbered f.
Proof using Nu.
  intros A O M S. destruct S as [g c l ts I As Al C|x c a b s I W Ma C|x c a b p I W Mb C];
    destruct (inside_means _ _ I M) as (t & Mg); destruct (inside_words _ _ I) as (W1 & W2); specialize (W2 O).
  - assert (W : words g = concat (map words l) /\ operators g = concat (map operators l)).
    { destruct g; try discriminate As; injection As as <- <-; cbn [words operators map concat]; rewrite ?app_nil_r; split; reflexivity. }
    destruct W as (X1 & X2). inversion Mg as [| | | | | | |? c1 l1 ts1 ? As1 Al1 C1]; subst; try discriminate As.
    rewrite As in As1. injection As1 as <- <-. assert (ts1 = ts); [|congruence].
    eapply all_mean_unique; [| |eassumption|eassumption]; [|congruence]. intros q u v H. apply A, W1. rewrite X1. exact H.
  - cbn [words operators] in W1, W2. apply app_eq_nil in W2 as (O1 & O2). inversion Mg as [| | | |? ? ? ? s' p' ? Ms Mp R| | |? ? ? ? ? As]; subst; [|discriminate As].
    assert (s' = s) as ->.
    { eapply (means_unique ord atom numbered Nu); [|exact O1|eassumption|eassumption]. intros q u v H. apply A, W1, in_or_app. left. exact H. }
    destruct W as [->| ->]; inversion R; subst; try congruence; match goal with H : ~ _ |- _ => apply H; unfold wraps_subject; auto; fail end.
  - cbn [words operators] in W1, W2. apply app_eq_nil in W2 as (O1 & O2). inversion Mg as [| | | |? ? ? ? s' p' ? Ms Mp R| | |? ? ? ? ? As]; subst; [|discriminate As].
    assert (p' = p) as ->.
    { eapply (means_unique ord atom numbered Nu); [|exact O2|eassumption|eassumption]. intros q u v H. apply A, W1, in_or_app. right. exact H. }
    destruct W as [->| ->]; inversion R; subst; try congruence; match goal with H : ~ _ |- _ => apply H; unfold wraps_predicate; auto; fail end.
Qed.
End Stuck.

(** * What the expression of a form is like *)

Lemma word_usual s : word s -> usual_name s.
Proof.
  intros W. split; [apply word_plain_name, W|]. intros I. destruct W as [(_ & F)|(w & -> & F)].
  - rewrite Forall_forall in F. destruct (F _ I) as ((L & _) & _). cbn in L. lia.
  - cbn in I. destruct I as [I|I]; [discriminate I|]. 
    assert (Q : list_ascii_of_string (w ++ """") = list_ascii_of_string w ++ [""""%char]) by (clear; induction w; cbn; congruence).
    rewrite Q in I. apply in_app_or in I as [I|[I|[]]]; [|discriminate I].
    rewrite Forall_forall in F. destruct (F _ I) as ((L & _) & _). cbn in L. lia.
Qed.


Lemma denotes_shape e f : denotes e f -> (forall s, In s (words f) -> word s) ->
  constructs e /\ texts e = words f /\ operators f = [].
Proof.
  revert e f. apply (denotes_mut (fun e f _ => (forall s, In s (words f) -> word s) -> constructs e /\ texts e = words f /\ operators f = [])
    (fun es l _ => (forall s, In s (concat (map words l)) -> word s) ->
       Forall constructs es /\ concat (map texts es) = concat (map words l) /\ concat (map operators l) = [])).
  - intros s H. split; [|split; reflexivity]. constructor. apply word_usual, H. left. reflexivity.
  - intros x c a b ea eb _ Ia _ Ib H. cbn [words operators] in *.
    destruct Ia as (A1 & A2 & A3); [intros s I; apply H, in_or_app; auto|]. destruct Ib as (B1 & B2 & B3); [intros s I; apply H, in_or_app; auto|].
    split; [constructor; assumption|]. split; [cbn; rewrite app_nil_r|]; rewrite ?A2, ?B2, ?A3, ?B3; reflexivity.
  - intros x a b ea eb _ Ia _ Ib H. cbn [words operators] in *.
    destruct Ia as (A1 & A2 & A3); [intros s I; apply H, in_or_app; auto|]. destruct Ib as (B1 & B2 & B3); [intros s I; apply H, in_or_app; auto|].
    split; [|split; [cbn; rewrite !app_nil_r|]; rewrite ?A2, ?B2, ?A3, ?B3; reflexivity].
    apply (K_statement _ Inheritance); [apply (K_compound ExtensionalSet); auto|assumption].
  - intros x a b ea eb _ Ia _ Ib H. cbn [words operators] in *.
    destruct Ia as (A1 & A2 & A3); [intros s I; apply H, in_or_app; auto|]. destruct Ib as (B1 & B2 & B3); [intros s I; apply H, in_or_app; auto|].
    split; [|split; [cbn; rewrite !app_nil_r|]; rewrite ?A2, ?B2, ?A3, ?B3; reflexivity].
    apply (K_statement _ Inheritance); [assumption|apply (K_compound IntensionalSet); auto].
  - intros x a b ea eb _ Ia _ Ib H. cbn [words operators] in *.
    destruct Ia as (A1 & A2 & A3); [intros s I; apply H, in_or_app; auto|]. destruct Ib as (B1 & B2 & B3); [intros s I; apply H, in_or_app; auto|].
    split; [|split; [cbn; rewrite !app_nil_r|]; rewrite ?A2, ?B2, ?A3, ?B3; reflexivity].
    apply (K_statement _ Inheritance); [apply (K_compound ExtensionalSet)|apply (K_compound IntensionalSet)]; auto.
  - intros f c l es As _ I H.
    assert (W : words f = concat (map words l) /\ operators f = concat (map operators l)).
    { destruct f; try discriminate As; injection As as <- <-; cbn [words operators map concat]; rewrite ?app_nil_r; split; reflexivity. }
    destruct W as (W1 & W2). rewrite W1 in H. destruct (I H) as (A & B & C). split; [constructor; exact A|].
    split; [rewrite W1; exact B|rewrite W2; exact C].
  - intros _. split; [constructor|split; reflexivity].
  - intros e es f l _ Ie _ Il H. cbn [map concat] in *.
    destruct Ie as (A1 & A2 & A3); [intros s I; apply H, in_or_app; auto|]. destruct Il as (B1 & B2 & B3); [intros s I; apply H, in_or_app; auto|].
    split; [constructor; assumption|]. rewrite A2, B2, A3, B3. split; reflexivity.
Qed.

(** * Straight expressions *)

Lemma straight_argument f l e : straight (Call f l) -> In e l -> straight e.
Proof.
  intros (A & B) I. split; [intros U; apply A; eapply U_argument; eassumption|].
  intros c W U. apply (B c W). eapply U_argument; eassumption.
Qed.

Lemma straight_connector c l : straight (compound_call (connector_called c) l) -> c <> ExtensionalDifference.
Proof. intros (A & _) ->. apply A. eapply U_argument; [left; reflexivity|constructor]. Qed.

Lemma straight_copula a c b : straight (statement_call a (copula_called c) b) -> ~ wrapping c.
Proof. intros (_ & B) W. apply (B c W). eapply U_argument; [right; left; reflexivity|constructor]. Qed.

Section Meaning.
Variable ord : list (option connector * list term) -> list (option connector * list term).
Hypothesis Ho : any_order ord.
Variable w : world.
Variable numbered : vkind -> string -> Z -> Prop.

Lemma all_one e ts : all_build ord w [e] ts -> exists t, ts = [t] /\ builds ord w e t.
Proof. intros H. inversion H as [|? ? t ts' B N]; subst. inversion N; subst. eauto. Qed.

Lemma inheritance_copula c : enum_member "Copula" "Inheritance" = Returned (PyCopula c) -> c = Inheritance.
Proof. cbn. congruence. Qed.

Lemma builds_means e f : denotes e f -> straight e -> forall t, builds ord w e t -> means ord (handed_out w) numbered f t.
Proof using Ho.
  revert e f. apply (denotes_mut (fun e f _ => straight e -> forall t, builds ord w e t -> means ord (handed_out w) numbered f t)
    (fun es l _ => (forall e, In e es -> straight e) -> forall ts, all_build ord w es ts -> all_mean ord (handed_out w) numbered l ts)).
  - intros s _ t B. inversion B; subst. constructor. assumption.
  - intros x c a b ea eb _ Ia _ Ib S t B. inversion B as [|? ? c1 ? s p M B1 B2|]; subst. rewrite copula_member in M. injection M as <-.
    assert (NW : ~ wrapping c) by (eapply straight_copula; exact S).
    econstructor; [apply Ia; [eapply straight_argument; [exact S|left; reflexivity]|exact B1]
      |apply Ib; [eapply straight_argument; [exact S|right; right; left; reflexivity]|exact B2]|].
    apply L_plain; intros W; apply NW; [left|right]; exact W.
  - intros x a b ea eb _ Ia _ Ib S t B. inversion B as [|? ? c1 ? s p M B1 B2|]; subst. apply inheritance_copula in M as ->.
    inversion B1 as [| |? c2 ? ts ? M A C]; subst. injection M as <-. apply all_one in A as (u & -> & A).
    assert (S1 : straight ea) by (eapply straight_argument; [eapply straight_argument; [exact S|left; reflexivity]|right; left; reflexivity]).
    econstructor; [apply Ia; [exact S1|exact A]|apply Ib; [eapply straight_argument; [exact S|right; right; left; reflexivity]|exact B2]|].
    apply L_instance, C.
  - intros x a b ea eb _ Ia _ Ib S t B. inversion B as [|? ? c1 ? s p M B1 B2|]; subst. apply inheritance_copula in M as ->.
    inversion B2 as [| |? c2 ? ts ? M A C]; subst. injection M as <-. apply all_one in A as (u & -> & A).
    assert (S2 : straight eb) by (eapply straight_argument; [eapply straight_argument; [exact S|right; right; left; reflexivity]|right; left; reflexivity]).
    econstructor; [apply Ia; [eapply straight_argument; [exact S|left; reflexivity]|exact B1]|apply Ib; [exact S2|exact A]|].
    apply L_property, C.
  - intros x a b ea eb _ Ia _ Ib S t B. inversion B as [|? ? c1 ? s p M B1 B2|]; subst. apply inheritance_copula in M as ->.
    inversion B1 as [| |? c2 ? ts ? M A C]; subst. injection M as <-. apply all_one in A as (u & -> & A).
    inversion B2 as [| |? c3 ? ts ? M A' C']; subst. injection M as <-. apply all_one in A' as (v & -> & A').
    assert (S1 : straight ea) by (eapply straight_argument; [eapply straight_argument; [exact S|left; reflexivity]|right; left; reflexivity]).
    assert (S2 : straight eb) by (eapply straight_argument; [eapply straight_argument; [exact S|right; right; left; reflexivity]|right; left; reflexivity]).
    econstructor; [apply Ia; [exact S1|exact A]|apply Ib; [exact S2|exact A']|]. apply L_both; assumption.
  - intros f c l es As _ I S t B. inversion B as [| |? c1 ? ts ? M A C]; subst.
    rewrite connector_member in M by (eapply straight_connector; exact S). injection M as <-.
    eapply M_compound; [exact As|apply I; [|exact A]|].
    + intros e J. eapply straight_argument; [exact S|right; exact J].
    + rewrite (compound_same ord Ho); [exact C|]. eapply all_build_vf; eassumption.
  - intros _ ts B. inversion B; subst. constructor.
  - intros e es f l _ Ie _ Il S ts B. inversion B; subst. constructor; [apply Ie; [apply S; left; reflexivity|assumption]|].
    apply Il; [intros e' J; apply S; right; exact J|assumption].
Qed.

Lemma all_builds_mean es : forall l, all_denote es l -> (forall e, In e es -> straight e) -> forall ts, all_build ord w es ts ->
  all_mean ord (handed_out w) numbered l ts.
Proof using Ho.
  induction es as [|e es IH]; intros l D S ts B; inversion D; subst; inversion B; subst; constructor.
  - eapply builds_means; [eassumption|apply S; left; reflexivity|assumption].
  - apply IH; [assumption|intros e' J; apply S; right; exact J|assumption].
Qed.

Lemma jammed_set n e : jammed ord w (compound_call n [e]) ->
  jammed ord w e \/ exists c t, enum_member "Connector" n = Returned (PyConnector c) /\ builds ord w e t /\ compound ord false c [t] = UB.
Proof.
  intros J. inversion J as [? c ? ts M A C| | |? ? e' I J']; subst.
  - right. apply all_one in A as (t & -> & A). eauto.
  - left. destruct I as [ ->|[]]. exact J'.
Qed.

Lemma jammed_stuck e f : denotes e f -> straight e -> jammed ord w e -> stuck ord (handed_out w) numbered f.
Proof using Ho.
  revert e f. apply (denotes_mut (fun e f _ => straight e -> jammed ord w e -> stuck ord (handed_out w) numbered f)
    (fun es l _ => (forall e, In e es -> straight e) -> forall e, In e es -> jammed ord w e ->
       exists f, In f l /\ stuck ord (handed_out w) numbered f)).
  - intros s _ J. inversion J.
  - intros x c a b ea eb _ Ia _ Ib S J. inversion J; subst.
    + eapply stuck_inside; [apply I_left, I_self|]. apply Ia; [eapply straight_argument; [exact S|left; reflexivity]|assumption].
    + eapply stuck_inside; [apply I_right, I_self|]. apply Ib; [eapply straight_argument; [exact S|right; right; left; reflexivity]|assumption].
  - intros x a b ea eb Da Ia _ Ib S J.
    assert (S1 : straight ea) by (eapply straight_argument; [eapply straight_argument; [exact S|left; reflexivity]|right; left; reflexivity]).
    inversion J as [|? ? ? J1|? ? ? J1|]; subst.
    + apply jammed_set in J1 as [J1|(c & t & M & B & C)].
      * eapply stuck_inside; [apply I_left, I_self|]. apply Ia; assumption.
      * injection M as <-. eapply S_subject; [apply I_self|unfold wraps_subject; auto|eapply builds_means; eassumption|exact C].
    + eapply stuck_inside; [apply I_right, I_self|]. apply Ib; [eapply straight_argument; [exact S|right; right; left; reflexivity]|assumption].
  - intros x a b ea eb _ Ia Db Ib S J.
    assert (S2 : straight eb) by (eapply straight_argument; [eapply straight_argument; [exact S|right; right; left; reflexivity]|right; left; reflexivity]).
    inversion J as [|? ? ? J1|? ? ? J1|]; subst.
    + eapply stuck_inside; [apply I_left, I_self|]. apply Ia; [eapply straight_argument; [exact S|left; reflexivity]|assumption].
    + apply jammed_set in J1 as [J1|(c & t & M & B & C)].
      * eapply stuck_inside; [apply I_right, I_self|]. apply Ib; assumption.
      * injection M as <-. eapply S_predicate; [apply I_self|unfold wraps_predicate; auto|eapply builds_means; eassumption|exact C].
  - intros x a b ea eb Da Ia Db Ib S J.
    assert (S1 : straight ea) by (eapply straight_argument; [eapply straight_argument; [exact S|left; reflexivity]|right; left; reflexivity]).
    assert (S2 : straight eb) by (eapply straight_argument; [eapply straight_argument; [exact S|right; right; left; reflexivity]|right; left; reflexivity]).
    inversion J as [|? ? ? J1|? ? ? J1|]; subst; apply jammed_set in J1 as [J1|(c & t & M & B & C)].
    + eapply stuck_inside; [apply I_left, I_self|]. apply Ia; assumption.
    + injection M as <-. eapply S_subject; [apply I_self|unfold wraps_subject; auto|eapply builds_means; eassumption|exact C].
    + eapply stuck_inside; [apply I_right, I_self|]. apply Ib; assumption.
    + injection M as <-. eapply S_predicate; [apply I_self|unfold wraps_predicate; auto|eapply builds_means; eassumption|exact C].
  - intros f c l es As D I S J. assert (Sa : forall e, In e es -> straight e) by (intros e J'; eapply straight_argument; [exact S|right; exact J']).
    inversion J as [? c1 ? ts M A C| | |? ? e In' J']; subst.
    + rewrite connector_member in M by (eapply straight_connector; exact S). injection M as <-.
      eapply S_compound; [apply I_self|exact As|eapply all_builds_mean; eassumption|].
      rewrite (compound_same ord Ho); [exact C|]. eapply all_build_vf; eassumption.
    + destruct (I Sa e In' J') as (g & Ig & Sg). eapply stuck_inside; [eapply I_component; [exact As|exact Ig|apply I_self]|exact Sg].
  - intros _ e [].
  - intros e es f l _ Ie _ Il S e' [ <-|I] J.
    + exists f. split; [left; reflexivity|]. apply Ie; [apply S; left; reflexivity|exact J].
    + destruct (Il (fun e0 J0 => S e0 (or_intror J0)) e' I J) as (g & Ig & Sg). exists g. split; [right; exact Ig|exact Sg].
Qed.
End Meaning.

(** * Reading what was built *)

Section Reading.
Variable ord : list (option connector * list term) -> list (option connector * list term).
Hypothesis Ho : any_order ord.
Variable fresh : world -> Z.
Hypothesis Hfresh : careful fresh.
Variable room : option nat.
Variable other : object -> string.

Theorem reads_built st rest e x lead pads : in_order (atoms st) (operations st) -> proper_task x -> denotes e (body x) -> straight e ->
  has_room room (text_for (x, lead, pads)) -> length pads = length (spell_task x) ->
  population (atoms st) + 4 * Z.of_nat (length (texts e)) < 4294967295 ->
  (exists st' t, evaluate ord fresh room other st rest e = Ok (st', rest, Returned (PyTerm t)) /\
    exists st'' tk, parse_task ord fresh room st' [] (text_for (x, lead, pads)) = Ok (st'', [], Some (VTask tk), false) /\
      content (sentence_of tk) = t /\ tab (atoms st'') = tab (atoms st')) \/
  (evaluate ord fresh room other st rest e = UB /\ exists w ops, in_order w ops /\
    (forall n a, handed_out (atoms st) n a -> handed_out w n a) /\ stuck ord (handed_out w) (by_occurrence (body x)) (body x)).
Proof using Ho Hfresh.
  intros O P D S Ro Le Po. pose proof (proj1 (words_words _ (or_introl (task_body x P)))) as Wo.
  destruct (denotes_shape e (body x) D Wo) as (C & T & Op).
  destruct (constructs_good ord Ho fresh Hfresh room other e C st rest O) as [(st1 & t & E & B & A)|(E & w & ops & Ow & G & J)]; [lia| |].
  - left. exists st1, t. split; [exact E|]. pose proof (after_order _ _ _ A) as O1. pose proof (after_count _ _ _ A) as Co.
    assert (L : population (atoms st1) + 2 * Z.of_nat (mentions (body x)) < 4294967295) by (unfold mentions; rewrite Op, <- T, Nat.add_0_r; lia).
    destruct (task_read ord Ho fresh Hfresh room st1 x lead pads Ro O1 P Le L) as [(st2 & tk & E2 & Sa & O2 & G2 & _ & _ & _ & Ta)|(E2 & w & ops & Ow & G & St)].
    + rewrite Op. intros s [].
    + exists st2, tk. split; [exact E2|]. split.
      * eapply meaning_unique; [exact O2|exact (task_body x P)|exact Op|apply (says_content _ _ _ _ _ Sa)|].
        eapply builds_means; [exact Ho|exact D|exact S|]. eapply builds_more; [exact G2|exact B].
      * apply Ta; [exact Op|]. intros n I. rewrite <- T in I. destruct (builds_texts _ _ _ _ B n I) as (a & H).
        destruct (constructs_usual _ C n I) as (N & _). destruct (order_handles _ _ O1 n a N H) as (L1 & _). apply known_iff. eauto.
    + exfalso. eapply means_free; [apply occurrence_unique| |exact Op| |exact St].
      * intros s a b I. apply (order_unique w ops s a b Ow). apply word_plain_name, Wo, I.
      * exists t. eapply builds_means; [exact Ho|exact D|exact S|]. eapply builds_more; [exact G|exact B].
  - right. split; [exact E|]. exists w, ops. split; [exact Ow|]. split; [exact G|]. eapply jammed_stuck; eassumption.
Qed.
End Reading.
