(* Every proper form has a derivation with any number of spaces after each of
   its lexemes. *)
From Coq Require Import ZArith String Ascii List Bool Lia.
From Verif Require Import Base Enums Term Tables Parser ParserSpec Grammar GrammarSpec NumeralSpec LexFacts LexFacts2 ParserCert ParserFacts ParserFacts2.
From Verif Require Import ParserFacts10 ParserFacts11 ParserFacts12 ParserFacts13 ParserCases2 Actions ActionsSpec PrinterSpec Forms FormFacts FormFacts2.
Import ListNotations.
Open Scope string_scope.
Open Scope list_scope.
Open Scope Z_scope.

Ltac open E := cbn [spelling] in E; rewrite ?commas_cons in E; repeat (cbn [map] in E; rewrite ?map_app in E); rewrite <- ?app_assoc in E; cbn [app] in E.
Ltac cuts E := repeat (progress (cut E)); rewrite ?map_app in E; cbn [map] in E.

Lemma terms_cons f l : Forall (term_made term_node) (f :: l) -> term_made term_node f /\ Forall (term_made term_node) l.
Proof. inversion 1. auto. Qed.

Lemma sign_at x s n : sign_ok x s = true -> made x [] [(chars s, n)].
Proof. apply made_sign. Qed.

Ltac sg n s := refine (made_sign _ s n _); vm_compute; reflexivity.

Lemma relation_good x c a b : proper a -> proper b -> good a -> good b -> good (Relation x c a b).
Proof.
  intros Pa Pb Ga Gb ws E. destruct x; open E.
  - cut E. cut E. cut E. cut E. cut E. cut E.
    node 36%nat; [kid; [node 34%nat; [kid; [sg n "<"|kid; [exact (good_term a Pa Ga _ E0)|kid; [apply copula_made|
      kid; [exact (good_term b Pb Gb _ E1)|kid; [sg n1 ">"|done]]]]]|tidy|tidy]|done]|tidy|tidy].
  - cut E. cut E. cut E. cut E. cut E. cut E.
    node 36%nat; [kid; [node 35%nat; [kid; [sg n "("|kid; [exact (good_term a Pa Ga _ E0)|kid; [apply copula_made|
      kid; [exact (good_term b Pb Gb _ E1)|kid; [sg n1 ")"|done]]]]]|tidy|tidy]|done]|tidy|tidy].
Qed.

Lemma operator_made s n m : word s -> made 204 [Node "operation" [leaf s]] [(chars "^", n); (chars s, m)].
Proof.
  intros W. node 68%nat; [kid; [sg n "^"|kid; [apply word_made, W|done]]|tidy|tidy].
Qed.

Lemma arguments_spelled s l : interspersed "," (["^"; s] :: map spelling l) = "^" :: s :: tail_spelling "," l.
Proof. rewrite interspersed_cons. reflexivity. Qed.

Ltac sng r s n := refine (made_one r _ _ _ s n eq_refl _); vm_compute; reflexivity.

(* A part that is already known to have a derivation. *)
Ltac known := eassumption.

Ltac star i l F E := pose proof (star_made term_node i (S i) (S (S i)) (S (S (S i))) (S (S (S (S i)))) _ _ _
  eq_refl eq_refl eq_refl eq_refl eq_refl eq_refl l F _ E).

Lemma invocation_good s l : word s -> Forall (term_made term_node) l -> good (Invocation s l).
Proof.
  intros W F ws E. cbn [spelling] in E. rewrite arguments_spelled in E. open E. cut E. cut E. cut E. cut E. cut E. cut E.
  star 38%nat l F E0.
  node 37%nat; [kid; [sg n "("|kid; [apply (operator_made s n0 n1 W)|kid; [known|kid; [sg n2 ")"|done]]]]|tidy|tidy].
Qed.


Lemma application_good s l : word s -> l <> [] -> Forall (term_made term_node) l -> good (Application s l).
Proof.
  intros W N F ws E. destruct l as [|f l]; [congruence|]. apply terms_cons in F as [Ff Fl].
  open E. cut E. cut E. cut E. cut E. cut E. cut E. star 44%nat l Fl E1. apply Ff in E0.
  node 43%nat; [kid; [apply (word_made s n W)|kid; [sg n0 "("|kid; [known|kid; [known|kid; [sg n1 ")"|done]]]]]|tidy|tidy].
Qed.

Lemma braces_good c l : set_connector c -> l <> [] -> Forall (term_made term_node) l -> good (Braces c l).
Proof.
  intros C N F ws E. destruct l as [|f l]; [congruence|]. apply terms_cons in F as [Ff Fl].
  destruct C as [ -> | -> ]; open E; cut E; cut E; cut E; cut E; cut E; apply Ff in E0.
  - star 86%nat l Fl E1. node 70%nat; [kid; [node 78%nat; [kid; [node 77%nat; [kid; [node 85%nat;
      [kid; [sng 177%nat "{" n|kid; [known|kid; [known|kid; [sg n0 "}"|done]]]]|tidy|tidy]|done]|tidy|tidy]|done]|tidy|tidy]|done]|tidy|tidy].
  - star 80%nat l Fl E1. node 70%nat; [kid; [node 78%nat; [kid; [node 76%nat; [kid; [node 79%nat;
      [kid; [sng 176%nat "[" n|kid; [known|kid; [known|kid; [sg n0 "]"|done]]]]|tidy|tidy]|done]|tidy|tidy]|done]|tidy|tidy]|done]|tidy|tidy].
Qed.

Lemma negated_good f : proper f -> good f -> good (Negated f).
Proof.
  intros P G ws E. open E. cut E. apply (good_term f P G) in E.
  node 75%nat; [kid; [node 93%nat; [kid; [node 91%nat; [kid; [sng 178%nat "--" n|kid; [known|done]]|tidy|tidy]|done]|tidy|tidy]|done]|tidy|tidy].
Qed.

Lemma negation_good f : proper f -> good f -> good (Prefixed Negation [f]).
Proof.
  intros P G ws E. cbn [spelling map interspersed] in E. open E. cut E. cut E. cut E. cut E. cut E. cut E. apply (good_term f P G) in E0.
  node 75%nat; [kid; [node 93%nat; [kid; [node 92%nat; [kid; [sg n "("|kid; [sng 178%nat "--" n0|kid; [sg n1 ","|kid; [known|
    kid; [sg n2 ")"|done]]]]]|tidy|tidy]|done]|tidy|tidy]|done]|tidy|tidy].
Qed.

Lemma listing_good c f l : listing c -> l <> [] -> Forall (term_made term_node) (f :: l) -> good (Prefixed c (f :: l)).
Proof.
  intros C N F ws E. apply terms_cons in F as [Ff Fl]. open E. cut E. cut E. cut E. cut E. cut E. cut E. cut E. apply Ff in E0.
  pose proof (listing_made c n0 C) as M.
  match type of E1 with map fst ?w = _ => assert (T : made 161 (map term_node l) w) end.
  { refine (plus_made term_node "," 224 112 113 114 47 104 162 161 eq_refl eq_refl _ eq_refl eq_refl eq_refl eq_refl eq_refl eq_refl eq_refl eq_refl l N Fl _ E1). lia. }
  match goal with |- made _ _ ?w => assert (A : made 156 (con_node c :: map term_node (f :: l)) w) end.
  { node 111%nat; [kid; [sg n "("|kid; [exact M|kid; [sg n1 ","|kid; [known|kid; [known|kid; [sg n2 ")"|done]]]]]]|tidy|tidy]. }
  assert (K : prefix_name c = "multi_prefix") by (destruct C as [ <- | [ <- | [ <- | [ <- | [ <- | [ <- | [] ] ] ] ] ] ]; reflexivity).
  match goal with |- made _ _ ?w => assert (R : made 194 [Node "multi_prefix" (con_node c :: map term_node (f :: l))] w) end.
  { node 71%nat; [kid; [node 121%nat; [kid; [exact A|done]|tidy|tidy]|done]|tidy|tidy]. }
  cbn [category core]. rewrite K. exact R.
Qed.

Lemma product_good c l : c = Product \/ image c -> l <> [] -> Forall (term_made term_node) l -> good (Prefixed c l).
Proof.
  intros C N F ws E. destruct l as [|f l]; [congruence|]. apply terms_cons in F as [Ff Fl].
  open E. cut E. cut E. cut E. cut E. cut E. cut E. cut E. apply Ff in E0. destruct C as [ -> | [ -> | -> ] ].
  - star 116%nat l Fl E1. node 71%nat; [kid; [node 121%nat; [kid; [node 115%nat; [kid; [sg n "("|kid; [sng 173%nat "*" n0|kid; [sg n1 ","|
      kid; [known|kid; [known|kid; [sg n2 ")"|done]]]]]]|tidy|tidy]|done]|tidy|tidy]|done]|tidy|tidy].
  - star 101%nat l Fl E1. node 73%nat; [kid; [node 100%nat; [kid; [sg n "("|kid; [sng 180%nat "/" n0|kid; [sg n1 ","|
      kid; [known|kid; [known|kid; [sg n2 ")"|done]]]]]]|tidy|tidy]|done]|tidy|tidy].
  - star 95%nat l Fl E1. node 74%nat; [kid; [node 94%nat; [kid; [sg n "("|kid; [sng 179%nat "\" n0|kid; [sg n1 ","|
      kid; [known|kid; [known|kid; [sg n2 ")"|done]]]]]]|tidy|tidy]|done]|tidy|tidy].
Qed.

Lemma difference_good c a b : difference c -> operand a -> operand b -> (operand a -> good a) -> (operand b -> good b) ->
  good (Prefixed c [a; b]).
Proof.
  intros C Oa Ob Ga Gb ws E. cbn [spelling map interspersed] in E. open E. cut E. cut E. cut E. cut E. cut E. cut E. cut E. cut E.
  destruct (operand_made a _ Oa Ga E0) as (M1 & _). destruct (operand_made b _ Ob Gb E1) as (_ & M2 & _).
  pose proof (difference_made c n0 C) as M.
  match goal with |- made _ _ ?w => assert (R : made 194 [Node "single_prefix" [con_node c; term_node a; term_node b]] w) end.
  { node 72%nat; [kid; [node 122%nat; [kid; [sg n "("|kid; [exact M|kid; [sg n1 ","|kid; [exact M1|kid; [sg n2 ","|kid; [exact M2|
      kid; [sg n3 ")"|done]]]]]]]|tidy|tidy]|done]|tidy|tidy]. }
  destruct C as [ -> | -> ]; exact R.
Qed.

Lemma between_good c a b : difference c -> operand a -> operand b -> (operand a -> good a) -> (operand b -> good b) ->
  good (Joined c [a; b]).
Proof.
  intros C Oa Ob Ga Gb ws E. cbn [spelling map interspersed] in E. open E. cut E. cut E. cut E. cut E. cut E. cut E.
  destruct (operand_made a _ Oa Ga E0) as (_ & _ & M1 & _). destruct (operand_made b _ Ob Gb E1) as (_ & _ & _ & M2).
  pose proof (difference_made c n0 C) as M.
  match goal with |- made _ _ ?w => assert (R : made 194 [Node "single_infix" [term_node a; con_node c; term_node b]] w) end.
  { node 72%nat; [kid; [node 127%nat; [kid; [sg n "("|kid; [exact M1|kid; [exact M|kid; [exact M2|
      kid; [sg n1 ")"|done]]]]]|tidy|tidy]|done]|tidy|tidy]. }
  destruct C as [ -> | -> ]; exact R.
Qed.

Lemma infix_good c f l : infix c -> l <> [] -> Forall (term_made term_node) (f :: l) -> good (Joined c (f :: l)).
Proof.
  intros C N F ws E. cbn [spelling map] in E. rewrite interspersed_cons in E. open E. cut E. rewrite app_assoc, <- map_app in E. cut E. cut E. cut E.
  pose proof (expression_made c f l _ C N F E0) as M.
  match goal with |- made _ _ ?w => assert (R : made 194 [Node "multi_infix" [Node (expr_name c) (map term_node (f :: l))]] w) end.
  { node 71%nat; [kid; [node 106%nat; [kid; [sg n "("|kid; [exact M|kid; [sg n0 ")"|done]]]|tidy|tidy]|done]|tidy|tidy]. }
  cbn [category core]. replace (is_difference c) with false; [exact R|].
  destruct C as [[ <- | [ <- | [ <- | [ <- | [ <- | [ <- | [] ] ] ] ] ] ]| -> ]; reflexivity.
Qed.

Lemma tuple_good f l : ~ operator f -> proper f -> l <> [] -> good f -> Forall (term_made term_node) l -> good (Tuple (f :: l)).
Proof.
  intros O P N G F ws E. open E. cut E. cut E. cut E. cut E. cut E.
  destruct (wrapped_first f _ (proper_bare f P) O (G _ E0)) as (t & B & S).
  match type of E1 with map fst ?w = _ => assert (T : made 164 (map term_node l) w) end.
  { refine (plus_made term_node "," 224 108 109 110 47 104 165 164 eq_refl eq_refl _ eq_refl eq_refl eq_refl eq_refl eq_refl eq_refl eq_refl eq_refl l N F _ E1). lia. }
  destruct T as (t2 & B2).
  assert (L : made 106 [] [(chars "(", n)]) by sg n "(". assert (R : made 105 [] [(chars ")", n0)]) by sg n0 ")".
  destruct L as (t1 & B1). destruct R as (t3 & B3).
  assert (A : all_build [t1; t; t2; t3] [106; 207; 164; 105] ([] ++ [term_node f] ++ map term_node l ++ [] ++ []) _)
    by (repeat (econstructor; try eassumption)).
  assert (K : suits 0 (Derived 107 [t1; t; t2; t3]) = forallb (suits 0) [t1; t; t2; t3]).
  { rewrite product_suits, S. cbn [forallb]. rewrite (b_suits _ _ _ _ B), (b_suits _ _ _ _ B1), (b_suits _ _ _ _ B2), (b_suits _ _ _ _ B3). reflexivity. }
  pose proof (build_node 107 _ _ _ _ _ _ eq_refl K A) as Z.
  node 71%nat; [kid; [eexists; exact Z|done]| |].
  - cbn [app]. rewrite !app_nil_r. reflexivity.
  - tidy.
Qed.

Lemma bare_good c f l : infix c -> l <> [] -> Forall (term_made term_node) (f :: l) -> good (Bare c (f :: l)).
Proof.
  intros C N F ws E. cbn [spelling map] in E. rewrite interspersed_cons in E. exact (expression_made c f l _ C N F E).
Qed.

Lemma two {A} (l : list A) : (2 <= length l)%nat -> exists x l', l = x :: l' /\ l' <> [].
Proof. destruct l as [|x [|y l]]; cbn; intros H; try lia. exists x, (y :: l). split; [reflexivity|discriminate]. Qed.

Lemma variable_made k s n m : word s -> made 196 [Node (variable_name k) [leaf s]] [(chars (variable_sign k), n); (chars s, m)].
Proof.
  intros W. destruct k.
  - node 181%nat; [kid; [sg n "$"|kid; [apply (word_made s m W)|done]]|tidy|tidy].
  - node 182%nat; [kid; [sg n "#"|kid; [apply (word_made s m W)|done]]|tidy|tidy].
  - node 183%nat; [kid; [sg n "?"|kid; [apply (word_made s m W)|done]]|tidy|tidy].
Qed.

Theorem forms_good f : (proper f -> good f) /\ (operand f -> good f).
Proof.
  assert (X : forall g, (proper g -> good g) -> (forall c l, g <> Bare c l) -> (proper g -> good g) /\ (operand g -> good g)).
  { intros g G B. split; [exact G|]. intros O. destruct O; [auto|]. exfalso. eapply B. reflexivity. }
  induction f as [s|k s|s|s|x c a b Ia Ib|s l I|s l I|c l I|f I|c l I|l I|c l I|c l I] using form_ind';
    try (apply X; [intros P; inversion P; subst|discriminate]).
  - intros ws E. open E. cut E. cut E. apply word_made. assumption.
  - intros ws E. open E. cut E. cut E. cut E. apply variable_made. assumption.
  - intros ws E. open E. cut E. cut E. cut E. apply operator_made. assumption.
  - intros ws E. open E. cut E. cut E. cut E.
    node 69%nat; [kid; [sg n0 "+"|kid; [eapply integer_made; eassumption|done]]|tidy|tidy].
  - destruct Ia, Ib. apply relation_good; auto.
  - apply invocation_good; [assumption|]. apply goods_terms; assumption.
  - apply application_good; [assumption|assumption|]. apply goods_terms; assumption.
  - apply braces_good; [assumption|assumption|]. apply goods_terms; assumption.
  - destruct I. apply negated_good; auto.
  - inversion I as [|? ? [G _] _]; subst. apply negation_good; auto.
  - match goal with H : (2 <= length l)%nat |- _ => destruct (two l H) as (f & l' & -> & N) end.
    apply listing_good; [assumption|assumption|]. apply goods_terms; assumption.
  - apply product_good; [assumption|assumption|]. apply goods_terms; assumption.
  - inversion I as [|? ? [_ G1] I2]; subst. inversion I2 as [|? ? [_ G2] _]; subst. apply difference_good; auto.
  - inversion I as [|? ? [G1 _] I2]; subst.
    match goal with H : Forall proper _ |- _ => inversion H; subst end. apply tuple_good; auto. apply goods_terms; assumption.
  - match goal with H : (2 <= length l)%nat |- _ => destruct (two l H) as (f & l' & -> & N) end.
    apply infix_good; [assumption|assumption|]. apply goods_terms; assumption.
  - inversion I as [|? ? [_ G1] I2]; subst. inversion I2 as [|? ? [_ G2] _]; subst. apply between_good; auto.
  - split; [intros P; inversion P|]. intros O. inversion O as [? P|? ? C L P]; subst; [inversion P|].
    destruct (two l L) as (f & l' & -> & N). apply bare_good; [assumption|assumption|]. apply goods_terms; assumption.
Qed.

Lemma proper_term f : proper f -> term_made term_node f.
Proof. intros P. apply good_term; [exact P|]. apply (proj1 (forms_good f)), P. Qed.
