(* Every proper task, spread with any number of spaces, is accepted, and its
   syntax tree. *)
From Coq Require Import ZArith String Ascii List Bool Lia.
From Verif Require Import Base Enums Term Tables Parser ParserSpec Grammar GrammarSpec NumeralSpec LexFacts LexFacts2 ParserCert ParserFacts ParserFacts2.
From Verif Require Import ParserFacts10 ParserFacts11 ParserFacts12 ParserFacts13 ParserCases2 Actions ActionsSpec PrinterSpec Forms FormFacts FormFacts2 FormFacts3.
Import ListNotations.
Open Scope string_scope.
Open Scope list_scope.
Open Scope Z_scope.

(** * Syntax trees of tasks *)

Definition leaves (names l : list string) : list ast := map (fun p => Leaf (fst p) (snd p)) (combine names l).

Definition values_node (name : string) (names l : list string) : list ast :=
  match l with [] => [] | _ => [Node name (leaves names l)] end.

Definition tense_node (t : option tense_form) : list ast :=
  match t with
  | None => []
  | Some (Timed s) => [Node "tense_time" [Leaf "integer" s]]
  | Some Past => [Node "tense_past" []]
  | Some Present => [Node "tense_present" []]
  | Some Future => [Node "tense_future" []]
  end.

Definition mark_name (p : punctuation) : string :=
  match p with Judgement => "judgement" | Question => "question" | Goal => "goal" | Quest => "quest" end.

Definition is_statement (f : form) : bool :=
  match f with Relation _ _ _ _ | Invocation _ _ | Application _ _ => true | _ => false end.

Definition top_node (f : form) : ast := if is_statement f then core f else term_node f.

Definition truth_names := ["frequency"; "confidence"; "k_evidence"].
Definition budget_names := ["priority"; "durability"; "quality"].

Definition sentence_node (x : task_form) : ast :=
  Node (mark_name (mark x)) (top_node (body x) :: tense_node (tense_part x) ++ values_node "truth" truth_names (truth_part x)).

Definition task_node (x : task_form) : ast :=
  Node "task" (values_node "budget" budget_names (budget_part x) ++ [sentence_node x]).

(** * Derivations *)

Lemma number_made r x sym s n : nth_error rules r = Some (x, [sym; 117], "") -> ordinary r = true -> 0 <= sym < 58 ->
  (token_name sym =? "")%string = false -> matches (lexeme sym) (chars s) -> made x [Leaf (token_name sym) s] [(chars s, n)].
Proof.
  intros N O B T M. pose proof (made_token r x sym (chars s) n N O B M) as Q. unfold leaf_of in Q. rewrite T, string_chars in Q. exact Q.
Qed.

Lemma budget_made l ws : l <> [] -> numerals [unit_number; open_number; unit_number] l ->
  map fst ws = map chars (spell_values "$" l) -> made 232 (values_node "budget" budget_names l) ws.
Proof.
  intros N H E. destruct l as [|p l]; [congruence|]. destruct H as ((Mp & _) & H).
  assert (K : forall n, made 62 [Leaf "priority" p] [(chars p, n)]).
  { intros n. refine (number_made 266 62 31 p n eq_refl eq_refl _ eq_refl Mp). lia. }
  destruct l as [|d l].
  { cbn in E. cut E. cut E. cut E. cut E.
    node 196%nat; [kid; [sgn "$" n|kid; [apply (K n0)|kid; [node 202%nat; [done|tidy|tidy]|kid; [sgn "$" n1|done]]]]|tidy|tidy]. }
  destruct H as ((Md & _) & H).
  assert (D : forall n, made 61 [Leaf "durability" d] [(chars d, n)]).
  { intros n. refine (number_made 267 61 30 d n eq_refl eq_refl _ eq_refl Md). lia. }
  destruct l as [|q l].
  { cbn in E. cut E. cut E. cut E. cut E. cut E. cut E.
    node 196%nat; [kid; [sgn "$" n|kid; [apply (K n0)|kid; [node 201%nat; [kid; [node 197%nat; [kid; [sgn ";" n1|kid; [apply (D n2)|kid; [
      node 200%nat; [done|tidy|tidy]|done]]]|tidy|tidy]|done]|tidy|tidy]|kid; [sgn "$" n3|done]]]]|tidy|tidy]. }
  destruct H as ((Mq & _) & H).
  assert (Q : forall n, made 60 [Leaf "quality" q] [(chars q, n)]).
  { intros n. refine (number_made 268 60 29 q n eq_refl eq_refl _ eq_refl Mq). lia. }
  destruct l as [|? l]; [|destruct H].
  cbn in E. cut E. cut E. cut E. cut E. cut E. cut E. cut E. cut E.
  node 196%nat; [kid; [sgn "$" n|kid; [apply (K n0)|kid; [node 201%nat; [kid; [node 197%nat; [kid; [sgn ";" n1|kid; [apply (D n2)|kid; [
    node 199%nat; [kid; [node 198%nat; [kid; [sgn ";" n3|kid; [apply (Q n4)|done]]|tidy|tidy]|done]|tidy|tidy]
    |done]]]|tidy|tidy]|done]|tidy|tidy]|kid; [sgn "$" n5|done]]]]|tidy|tidy].
Qed.

Lemma truth_made l ws : l <> [] -> numerals [unit_number; open_number; natural] l ->
  map fst ws = map chars (spell_values "%" l) -> made 222 (values_node "truth" truth_names l) ws.
Proof.
  intros N H E. destruct l as [|p l]; [congruence|]. destruct H as ((Mp & _) & H).
  assert (K : forall n, made 66 [Leaf "frequency" p] [(chars p, n)]).
  { intros n. refine (number_made 262 66 56 p n eq_refl eq_refl _ eq_refl Mp). lia. }
  destruct l as [|d l].
  { cbn in E. cut E. cut E. cut E. cut E.
    node 189%nat; [kid; [sgn "%" n|kid; [apply (K n0)|kid; [node 195%nat; [done|tidy|tidy]|kid; [sgn "%" n1|done]]]]|tidy|tidy]. }
  destruct H as ((Md & _) & H).
  assert (D : forall n, made 64 [Leaf "confidence" d] [(chars d, n)]).
  { intros n. refine (number_made 264 64 35 d n eq_refl eq_refl _ eq_refl Md). lia. }
  destruct l as [|q l].
  { cbn in E. cut E. cut E. cut E. cut E. cut E. cut E.
    node 189%nat; [kid; [sgn "%" n|kid; [apply (K n0)|kid; [node 194%nat; [kid; [node 190%nat; [kid; [sgn ";" n1|kid; [apply (D n2)|kid; [
      node 193%nat; [done|tidy|tidy]|done]]]|tidy|tidy]|done]|tidy|tidy]|kid; [sgn "%" n3|done]]]]|tidy|tidy]. }
  destruct H as ((Mq & _) & H).
  assert (Q : forall n, made 63 [Leaf "k_evidence" q] [(chars q, n)]).
  { intros n. refine (number_made 265 63 34 q n eq_refl eq_refl _ eq_refl Mq). lia. }
  destruct l as [|? l]; [|destruct H].
  cbn in E. cut E. cut E. cut E. cut E. cut E. cut E. cut E. cut E.
  node 189%nat; [kid; [sgn "%" n|kid; [apply (K n0)|kid; [node 194%nat; [kid; [node 190%nat; [kid; [sgn ";" n1|kid; [apply (D n2)|kid; [
    node 192%nat; [kid; [node 191%nat; [kid; [sgn ";" n3|kid; [apply (Q n4)|done]]|tidy|tidy]|done]|tidy|tidy]
    |done]]]|tidy|tidy]|done]|tidy|tidy]|kid; [sgn "%" n5|done]]]]|tidy|tidy].
Qed.

Lemma tense_made t ws : proper_tense t -> map fst ws = map chars (spell_tense (Some t)) -> made 225 (tense_node (Some t)) ws.
Proof.
  intros P E. destruct t as [s| | |]; cbn [spell_tense map] in E; cbn [tense_node].
  - destruct P as (m & W & _). cut E. cut E. cut E. cut E.
    node 184%nat; [kid; [sgn ":!" n|kid; [apply (integer_made s m n0 W)|kid; [sgn ":" n1|done]]]|tidy|tidy].
  - cut E. cut E. sng 187%nat ":\:" n.
  - cut E. cut E. sng 186%nat ":|:" n.
  - cut E. cut E. sng 185%nat ":/:" n.
Qed.

Lemma mark_made p n : made (match p with Judgement => 116 | Question => 115 | Goal => 114 | Quest => 113 end) [] [(chars (mark_sign p), n)].
Proof. destruct p; apply made_sign; vm_compute; reflexivity. Qed.

(* The optional parts. *)
Lemma tense_option t ws : (forall u, t = Some u -> proper_tense u) -> map fst ws = map chars (spell_tense t) ->
  made 223 (tense_node t) ws /\ made 217 (tense_node t) ws /\ made 214 (tense_node t) ws /\ made 208 (tense_node t) ws.
Proof.
  intros P E. destruct t as [u|].
  - pose proof (tense_made u ws (P u eq_refl) E) as M. generalize dependent (tense_node (Some u)). intros a M. repeat split.
    + node 8%nat; [kid; [node 7%nat; [kid; [exact M|done]|tidy|tidy]|done]|tidy|tidy].
    + node 17%nat; [kid; [node 16%nat; [kid; [exact M|done]|tidy|tidy]|done]|tidy|tidy].
    + node 23%nat; [kid; [node 22%nat; [kid; [exact M|done]|tidy|tidy]|done]|tidy|tidy].
    + node 32%nat; [kid; [node 31%nat; [kid; [exact M|done]|tidy|tidy]|done]|tidy|tidy].
  - cbn in E. cut E. repeat split; [node 9%nat|node 18%nat|node 24%nat|node 33%nat]; (done || tidy).
Qed.

Lemma truth_option l ws : numerals [unit_number; open_number; natural] l -> map fst ws = map chars (spell_values "%" l) ->
  made 220 (values_node "truth" truth_names l) ws /\ made 211 (values_node "truth" truth_names l) ws.
Proof.
  intros N E. destruct l as [|p l].
  - cbn in E. cut E. split; [node 12%nat|node 27%nat]; (done || tidy).
  - pose proof (truth_made (p :: l) ws ltac:(discriminate) N E) as M. generalize dependent (values_node "truth" truth_names (p :: l)).
    intros a M. split.
    + node 11%nat; [kid; [node 10%nat; [kid; [exact M|done]|tidy|tidy]|done]|tidy|tidy].
    + node 26%nat; [kid; [node 25%nat; [kid; [node 188%nat; [kid; [exact M|done]|tidy|tidy]|done]|tidy|tidy]|done]|tidy|tidy].
Qed.

Lemma budget_option l ws : numerals [unit_number; open_number; unit_number] l -> map fst ws = map chars (spell_values "$" l) ->
  made 230 (values_node "budget" budget_names l) ws.
Proof.
  intros N E. destruct l as [|p l].
  - cbn in E. cut E. node 2%nat; (done || tidy).
  - pose proof (budget_made (p :: l) ws ltac:(discriminate) N E) as M. generalize dependent (values_node "budget" budget_names (p :: l)).
    intros a M. node 1%nat; [kid; [node 0%nat; [kid; [exact M|done]|tidy|tidy]|done]|tidy|tidy].
Qed.

(* The subject of a sentence. *)
Lemma top_made f ws r1 r2 x : proper f -> is_variable f = false -> In (r1, r2, x) [(4, 5, 226); (13, 14, 219); (19, 20, 216); (28, 29, 210)]%nat ->
  map fst ws = map chars (spelling f) -> made (Z.of_nat x) [top_node f] ws.
Proof.
  intros P V I E. pose proof (proj1 (forms_good f) P ws E) as M. unfold top_node. destruct (is_statement f) eqn:S.
  - assert (C : category f = 227) by (destruct f; try discriminate S; reflexivity). rewrite C in M.
    generalize dependent (core f). intros a M.
    destruct I as [I|[I|[I|[I|[]]]]]; injection I as <- <- <-;
      [node 5%nat|node 14%nat|node 20%nat|node 29%nat]; try (kid; [exact M|done]); tidy.
  - destruct (wrapped f ws (proper_bare f P) V M) as (t & B).
    assert (A : all_build [Derived (wrap_rule f) [t]] [228] [term_node f] ws).
    { rewrite <- (app_nil_r [term_node f]), <- (app_nil_r ws). constructor; [exact B|constructor]. }
    assert (K : forall r, In r [4; 13; 19; 28]%nat -> suits 0 (Derived r [Derived (wrap_rule f) [t]]) = forallb (suits 0) [Derived (wrap_rule f) [t]]).
    { intros r Ir. rewrite sentence_suits by exact Ir. cbn [forallb]. rewrite suits_one, andb_true_r; [reflexivity|].
      destruct f; try discriminate S; discriminate. }
    destruct I as [I|[I|[I|[I|[]]]]]; injection I as <- <- <-; eexists.
    + exact (build_node 4 _ _ _ _ _ _ eq_refl (K 4%nat ltac:(cbn; auto)) A).
    + exact (build_node 13 _ _ _ _ _ _ eq_refl (K 13%nat ltac:(cbn; auto)) A).
    + exact (build_node 19 _ _ _ _ _ _ eq_refl (K 19%nat ltac:(cbn; auto)) A).
    + exact (build_node 28 _ _ _ _ _ _ eq_refl (K 28%nat ltac:(cbn; auto)) A).
Qed.

Lemma sentence_made x ws : proper_task x ->
  map fst ws = map chars (spelling (body x) ++ mark_sign (mark x) :: spell_tense (tense_part x) ++ spell_values "%" (truth_part x)) ->
  made 229 [sentence_node x] ws.
Proof.
  intros [_ B V T U K] E. destruct x as [bp f p tp up]. cbn [body mark tense_part truth_part budget_part] in *.
  assert (V' : is_variable f = false) by (destruct f as [|k s| | | | | | | | | | |]; try reflexivity; destruct (V k s eq_refl)).
  rewrite map_app in E. cbn [map] in E. rewrite map_app in E. cut E. cut E. cut E.
  pose proof (fun r1 r2 x I => top_made f _ r1 r2 x B V' I E0) as M.
  destruct (tense_option tp _ T E1) as (T1 & T2 & T3 & T4). destruct (truth_option up _ U E) as (U1 & U2).
  pose proof (mark_made p n) as Q. unfold sentence_node. cbn [body mark tense_part truth_part].
  assert (Z : p = Question \/ p = Quest -> up = []).
  { intros H. destruct up; [reflexivity|]. destruct (K ltac:(discriminate)) as [ -> | -> ]; destruct H; discriminate. }
  generalize dependent (top_node f). intros top M. generalize dependent (tense_node tp). intros tense T1 T2 T3 T4.
  destruct p; cbn [mark_name mark_sign] in *.
  - generalize dependent (values_node "truth" truth_names up). intros truth U1 U2.
    node 6%nat; [kid; [apply (M 4 5 226)%nat; cbn; auto|kid; [exact Q|kid; [exact T1|kid; [exact U1|done]]]]|tidy|tidy].
  - rewrite (Z (or_introl eq_refl)) in *. cbn [spell_values map] in E. cut E. cbn [values_node].
    node 15%nat; [kid; [apply (M 13 14 219)%nat; cbn; auto|kid; [exact Q|kid; [exact T2|done]]]|tidy|tidy].
  - generalize dependent (values_node "truth" truth_names up). intros truth U1 U2.
    node 21%nat; [kid; [apply (M 19 20 216)%nat; cbn; auto|kid; [exact Q|kid; [exact T3|kid; [exact U2|done]]]]|tidy|tidy].
  - rewrite (Z (or_intror eq_refl)) in *. cbn [spell_values map] in E. cut E. cbn [values_node].
    node 30%nat; [kid; [apply (M 28 29 210)%nat; cbn; auto 10|kid; [exact Q|kid; [exact T4|done]]]|tidy|tidy].
Qed.

Lemma task_made x ws : proper_task x -> map fst ws = map chars (spell_task x) -> made 233 [task_node x] ws.
Proof.
  intros P E. unfold spell_task in E. rewrite map_app in E. cut E.
  pose proof (budget_option _ _ (task_budget x P) E0) as B. pose proof (sentence_made x _ P E) as S.
  unfold task_node. generalize dependent (sentence_node x). generalize dependent (values_node "budget" budget_names (budget_part x)).
  intros b B s S. node 3%nat; [kid; [exact B|kid; [exact S|done]]|tidy|tidy].
Qed.

(** * The text *)

Definition printable (c : ascii) : Prop := (32 <= nat_of_ascii c <= 126)%nat.
Definition shown (s : string) : Prop := Forall printable (chars s).

Lemma plain_shown s : plain s -> shown s.
Proof. intros (_ & F). eapply Forall_impl; [|exact F]. intros c (H & _). unfold printable. lia. Qed.

Lemma word_shown s : word s -> shown s.
Proof.
  intros [P|(w & -> & F)]; [apply plain_shown, P|]. unfold shown. rewrite !chars_append. cbn [list_ascii_of_string].
  assert (Q : Forall printable [""""%char]) by (constructor; [unfold printable; cbn; lia|constructor]).
  apply Forall_app. split; [exact Q|]. apply Forall_app. split; [|exact Q].
  eapply Forall_impl; [|exact F]. intros c (H & _). exact H.
Qed.

Definition printable_b (c : ascii) : bool := (32 <=? nat_of_ascii c)%nat && (nat_of_ascii c <=? 126)%nat.

Lemma shown_b s : forallb printable_b (chars s) = true -> shown s.
Proof.
  intros H. unfold shown. rewrite forallb_forall in H. apply Forall_forall. intros c I. specialize (H c I).
  unfold printable_b in H. apply andb_true_iff in H as [A B]. apply Nat.leb_le in A, B. split; assumption.
Qed.

Lemma whole_shown s n : whole (chars s) n -> shown s.
Proof.
  assert (D : forall l, Forall decimal_digit l -> Forall printable l).
  { intros l F. eapply Forall_impl; [|exact F]. intros c H. unfold decimal_digit in H. unfold printable. lia. }
  unfold shown. intros H. destruct H as [a _ F|a _ F]; [apply D, F|]. constructor; [unfold printable; cbn; lia|apply D, F].
Qed.

Lemma intersperse_shown b l : shown b -> Forall (Forall shown) l -> Forall shown (interspersed b l).
Proof.
  intros B F. destruct F as [|x l X F]; [constructor|]. rewrite interspersed_cons. apply Forall_app. split; [exact X|].
  induction F as [|y l Y _ IH]; [constructor|]. cbn [map concat]. constructor; [exact B|]. apply Forall_app. split; assumption.
Qed.

Ltac sh := apply shown_b; vm_compute; reflexivity.

Lemma sign_shown c : shown (sign c). Proof. destruct c; sh. Qed.
Lemma copula_sign_shown c : shown (copula_sign c). Proof. destruct c; sh. Qed.
Lemma closing_shown c : shown (closing c). Proof. destruct c; sh. Qed.
Lemma variable_sign_shown k : shown (variable_sign k). Proof. destruct k; sh. Qed.
Lemma comma_shown : shown ",". Proof. sh. Qed.
Lemma paren_shown : shown "(" /\ shown ")" /\ shown "<" /\ shown ">" /\ shown "^" /\ shown "+" /\ shown "--".
Proof. repeat split; sh. Qed.

Theorem forms_shown f : (proper f \/ operand f) -> Forall shown (spelling f).
Proof.
  destruct paren_shown as (S1 & S2 & S3 & S4 & S5 & S6 & S7).
  assert (X : forall l, Forall (fun f => proper f \/ operand f -> Forall shown (spelling f)) l -> Forall proper l -> Forall (Forall shown) (map spelling l)).
  { intros l I F. induction F as [|g l Pg _ IH]; [constructor|]. inversion I; subst. cbn [map]. constructor; [auto|auto]. }
  induction f as [s|k s|s|s|x c a b Ia Ib|s l I|s l I|c l I|f I|c l I|l I|c l I|c l I] using form_ind'; intros P.
  - assert (P' : proper (Word s)) by (destruct P as [P|P]; [exact P|inversion P; assumption]).
    inversion P'; subst. cbn [spelling]. constructor; [apply word_shown; assumption|constructor].
  - assert (P' : proper (Placeholder k s)) by (destruct P as [P|P]; [exact P|inversion P; assumption]).
    inversion P'; subst. cbn [spelling]. constructor; [apply variable_sign_shown|]. constructor; [apply word_shown; assumption|constructor].
  - assert (P' : proper (Operator s)) by (destruct P as [P|P]; [exact P|inversion P; assumption]).
    inversion P'; subst. cbn [spelling]. constructor; [exact S5|]. constructor; [apply word_shown; assumption|constructor].
  - assert (P' : proper (Interval s)) by (destruct P as [P|P]; [exact P|inversion P; assumption]).
    inversion P'; subst. cbn [spelling]. constructor; [exact S6|]. constructor; [eapply whole_shown; eassumption|constructor].
  - assert (P' : proper (Relation x c a b)) by (destruct P as [P|P]; [exact P|inversion P; assumption]).
    inversion P'; subst. cbn [spelling]. destruct x; (constructor; [assumption|]); apply Forall_app; (split; [auto|]);
      (constructor; [apply copula_sign_shown|]); apply Forall_app; (split; [auto|]); (constructor; [assumption|constructor]).
  - assert (P' : proper (Invocation s l)) by (destruct P as [P|P]; [exact P|inversion P; assumption]).
    inversion P'; subst. cbn [spelling]. constructor; [assumption|]. apply Forall_app. split; [|constructor; [assumption|constructor]].
    apply intersperse_shown; [apply comma_shown|]. constructor; [|auto].
    constructor; [assumption|]. constructor; [apply word_shown; assumption|constructor].
  - assert (P' : proper (Application s l)) by (destruct P as [P|P]; [exact P|inversion P; assumption]).
    inversion P'; subst. cbn [spelling]. constructor; [apply word_shown; assumption|]. constructor; [assumption|]. apply Forall_app.
    split; [|constructor; [assumption|constructor]]. apply intersperse_shown; [apply comma_shown|]. auto.
  - assert (P' : proper (Braces c l)) by (destruct P as [P|P]; [exact P|inversion P; assumption]).
    inversion P'; subst. cbn [spelling]. constructor; [apply sign_shown|]. apply Forall_app.
    split; [|constructor; [apply closing_shown|constructor]]. apply intersperse_shown; [apply comma_shown|]. auto.
  - assert (P' : proper (Negated f)) by (destruct P as [P|P]; [exact P|inversion P; assumption]).
    inversion P'; subst. cbn [spelling]. constructor; [assumption|]. auto.
  - assert (P' : proper (Prefixed c l)) by (destruct P as [P|P]; [exact P|inversion P; assumption]).
    cbn [spelling]. constructor; [assumption|]. constructor; [apply sign_shown|]. constructor; [apply comma_shown|]. apply Forall_app.
    split; [|constructor; [assumption|constructor]]. apply intersperse_shown; [apply comma_shown|].
    inversion P'; subst; auto.
    + inversion I as [|? ? Ia I2]; subst. inversion I2 as [|? ? Ib _]; subst. cbn [map]. constructor; [auto|]. constructor; [auto|constructor].
  - assert (P' : proper (Tuple l)) by (destruct P as [P|P]; [exact P|inversion P; assumption]).
    cbn [spelling]. constructor; [assumption|]. apply Forall_app.
    split; [|constructor; [assumption|constructor]]. apply intersperse_shown; [apply comma_shown|]. inversion P'; subst; auto.
  - assert (P' : proper (Joined c l)) by (destruct P as [P|P]; [exact P|inversion P; assumption]).
    cbn [spelling]. constructor; [assumption|]. apply Forall_app.
    split; [|constructor; [assumption|constructor]]. apply intersperse_shown; [apply sign_shown|]. inversion P'; subst; auto.
    inversion I as [|? ? Ia I2]; subst. inversion I2 as [|? ? Ib _]; subst. cbn [map]. constructor; [auto|]. constructor; [auto|constructor].
  - assert (P' : operand (Bare c l)) by (destruct P as [P|P]; [inversion P|exact P]).
    inversion P' as [? H|]; subst; [inversion H|]. cbn [spelling]. apply intersperse_shown; [apply sign_shown|]. auto.
Qed.

(* Regular expressions whose words are printable. *)
Fixpoint tidy_re (r : re) : bool :=
  match r with
  | Void | Eps => true
  | Range l => forallb (fun p => (32 <=? fst p) && (snd p <=? 126)) l
  | Except _ => false
  | Cat a b | Alt a b => tidy_re a && tidy_re b
  | Star a => tidy_re a
  end.

Lemma code_range c : 32 <= code c <= 126 -> printable c.
Proof.
  intros H. unfold printable. destruct (le_lt_dec 128 (nat_of_ascii c)) as [L|L].
  - exfalso. destruct c as [[] [] [] [] [] [] [] []]; vm_compute in H; destruct H as [H1 H2];
      first [apply H1; reflexivity | apply H2; reflexivity | clear H1 H2; vm_compute in L; lia].
  - rewrite code_nat in H by lia. lia.
Qed.

Lemma tidy_printable r w : matches r w -> tidy_re r = true -> Forall printable w.
Proof.
  induction 1; cbn [tidy_re]; intros T; try (apply andb_true_iff in T as [T1 T2]); auto; try discriminate; try (apply Forall_app; auto).
  constructor; [|constructor]. apply code_range. unfold in_ranges in H. apply existsb_exists in H as (p & I & H).
  rewrite forallb_forall in T. specialize (T p I). apply andb_true_iff in T as [T1 T2]. apply andb_true_iff in H as [H1 H2]. lia.
Qed.

Lemma numerals_shown kinds l : forallb tidy_re kinds = true -> numerals kinds l -> Forall shown l.
Proof.
  revert kinds. induction l as [|s l IH]; intros kinds T N; [constructor|]. destruct kinds as [|r kinds]; [destruct N|].
  cbn [forallb] in T. apply andb_true_iff in T as [T1 T2]. destruct N as ((M & _) & N). constructor; [|eapply IH; eassumption].
  eapply tidy_printable; eassumption.
Qed.

Lemma values_shown q l : shown q -> Forall shown l -> Forall shown (spell_values q l).
Proof.
  intros Q F. destruct l as [|s l]; [constructor|]. unfold spell_values. constructor; [exact Q|]. apply Forall_app. split; [|constructor; [exact Q|constructor]].
  apply intersperse_shown; [sh|]. apply Forall_forall. intros x I. apply in_map_iff in I as (y & <- & I).
  rewrite Forall_forall in F. constructor; [apply F, I|constructor].
Qed.

Lemma task_shown x : proper_task x -> Forall shown (spell_task x).
Proof.
  intros P. unfold spell_task. apply Forall_app. split.
  - apply values_shown; [sh|]. eapply numerals_shown; [|apply (task_budget x P)]. reflexivity.
  - apply Forall_app. split; [apply forms_shown; left; apply (task_body x P)|]. constructor; [destruct (mark x); sh|].
    apply Forall_app. split.
    + destruct (tense_part x) as [t|] eqn:E; [|constructor]. pose proof (task_tense x P t E) as Q.
      destruct t as [s| | |]; cbn [spell_tense]; [|constructor; [sh|constructor]..].
      destruct Q as (n & W & _). constructor; [sh|]. constructor; [eapply whole_shown, W|]. constructor; [sh|constructor].
    + apply values_shown; [sh|]. eapply numerals_shown; [|apply (task_truth x P)]. reflexivity.
Qed.

Lemma line_shown l : Forall printable l -> line (string_of_list_ascii l) = l.
Proof.
  induction 1 as [|c l P _ IH]; [reflexivity|]. cbn [string_of_list_ascii line]. rewrite IH.
  unfold printable in P. rewrite code_nat by lia.
  destruct (Z.eqb_spec (Z.of_nat (nat_of_ascii c)) 0); [lia|]. destruct (Z.eqb_spec (Z.of_nat (nat_of_ascii c)) 10); [lia|]. reflexivity.
Qed.

Lemma spaces_shown n : Forall printable (spaces n).
Proof. unfold spaces. apply Forall_forall. intros c I. apply repeat_spec in I. subst c. unfold printable. cbn. lia. Qed.

Lemma padded_shown l pads : Forall shown l -> Forall printable (padded (map chars l) pads).
Proof.
  intros F. revert pads. induction F as [|s l S _ IH]; intros [|n pads]; cbn [map padded]; try constructor.
  apply Forall_app. split; [exact S|]. apply Forall_app. split; [apply spaces_shown|apply IH].
Qed.

Lemma padded_written l pads : length pads = length l -> padded l pads = written_out (combine l pads).
Proof.
  revert pads. induction l as [|w l IH]; intros [|n pads] L; try discriminate L; [reflexivity|].
  cbn [padded combine]. unfold written_out. cbn [map concat fst snd]. rewrite IH by (injection L as L; exact L).
  rewrite <- app_assoc. reflexivity.
Qed.

Lemma combine_fst {A B} (l : list A) (m : list B) : length m = length l -> map fst (combine l m) = l.
Proof.
  revert m. induction l as [|x l IH]; intros [|y m] L; try discriminate L; [reflexivity|].
  cbn [combine map fst]. rewrite IH by (injection L as L; exact L). reflexivity.
Qed.

Theorem task_accepted x lead pads : proper_task x -> length pads = length (spell_task x) ->
  parse unlimited [] (spread lead (spell_task x) pads) = Ok (Accepted [task_node x], []).
Proof.
  intros P L. set (ws := combine (map chars (spell_task x)) pads).
  assert (W : map fst ws = map chars (spell_task x)) by (apply combine_fst; rewrite map_length; exact L).
  destruct (task_made x ws P W) as (t & B).
  assert (E : builds (Token 0 []) 0 [] []).
  { constructor; try reflexivity; [constructor; [lia|constructor]|]. intros w [F|[]]. discriminate F. }
  assert (A1 : made 120 ([task_node x] ++ [] ++ []) (ws ++ [] ++ [])).
  { refine (made_node 206 120 [233; 0] "" _ _ eq_refl eq_refl _). constructor; [eexists; exact B|]. constructor; [eexists; exact E|constructor]. }
  assert (A2 : made 59 ([] ++ ([task_node x] ++ [] ++ []) ++ []) ([([], lead)] ++ (ws ++ [] ++ []) ++ [])).
  { refine (made_node 269 59 [117; 120] "" _ _ eq_refl eq_refl _). constructor; [apply made_blank|]. constructor; [exact A1|constructor]. }
  destruct A2 as (g & [D R S PR T SP]).
  change [task_node x] with ([] ++ ([task_node x] ++ [] ++ []) ++ @nil ast). rewrite <- PR.
  apply goal_accepted; [exact D|exact R|exact S| |exact SP].
  rewrite T. unfold spread. rewrite line_shown.
  - rewrite padded_written by (rewrite map_length; exact L). cbn [app]. rewrite !app_nil_r. reflexivity.
  - apply Forall_app. split; [apply spaces_shown|]. apply padded_shown, task_shown, P.
Qed.
