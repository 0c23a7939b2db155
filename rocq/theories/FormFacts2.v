(* The syntax trees of forms, and the derivations that lead to them. *)
From Coq Require Import ZArith String Ascii List Bool Lia.
From Verif Require Import Base Enums Term Tables Parser ParserSpec Grammar GrammarSpec NumeralSpec LexFacts LexFacts2 ParserCert ParserFacts ParserFacts2.
From Verif Require Import ParserFacts10 ParserFacts11 ParserFacts12 ParserFacts13 ParserCases2 Actions ActionsSpec PrinterSpec Forms FormFacts.
Import ListNotations.
Open Scope string_scope.
Open Scope list_scope.
Open Scope Z_scope.

(** * The syntax trees of forms *)

Definition leaf (s : string) : ast :=
  match s with
  | String """"%char _ => Leaf "string" s
  | _ => Leaf "string_raw" s
  end.

Definition copula_name (c : copula) : string :=
  match c with
  | Inheritance => "inheritance" | Similarity => "similarity" | Instance => "instance" | Property => "property"
  | InstanceProperty => "instance_property" | Implication => "implication"
  | PredictiveImplication => "predictive_implication" | ConcurrentImplication => "concurrent_implication"
  | RetrospectiveImplication => "retrospective_implication" | Equivalence => "equivalence"
  | PredictiveEquivalence => "predictive_equivalence" | ConcurrentEquivalence => "concurrent_equivalence"
  end.

Definition connector_name (c : connector) : string :=
  match c with
  | Conjunction => "con_conjunction" | Disjunction => "con_disjunction" | Product => "con_product"
  | ParallelEvents => "con_parallel_events" | SequentialEvents => "con_sequential_events"
  | IntensionalIntersection => "con_intensional_intersection" | ExtensionalIntersection => "con_extensional_intersection"
  | ExtensionalDifference => "con_extensional_difference" | IntensionalDifference => "con_intensional_difference"
  | Negation => "con_negation" | IntensionalSet => "con_int_set" | ExtensionalSet => "con_ext_set"
  | IntensionalImage => "con_int_image" | ExtensionalImage => "con_ext_image" | CList => ""
  end.

Definition expr_name (c : connector) : string :=
  match c with
  | Product => "multi_prod_expr" | Disjunction => "multi_disj_expr" | Conjunction => "multi_conj_expr"
  | SequentialEvents => "multi_sequential_expr" | ParallelEvents => "multi_parallel_expr"
  | IntensionalIntersection => "multi_intint_expr" | ExtensionalIntersection => "multi_extint_expr"
  | _ => ""
  end.

Definition prefix_name (c : connector) : string :=
  match c with
  | Negation => "negation" | IntensionalImage => "int_image" | ExtensionalImage => "ext_image"
  | ExtensionalDifference | IntensionalDifference => "single_prefix"
  | _ => "multi_prefix"
  end.

Definition con_node (c : connector) : ast := Node (connector_name c) [].

Definition is_difference (c : connector) : bool :=
  match c with ExtensionalDifference | IntensionalDifference => true | _ => false end.

(* How the node of a form is wrapped where a term is expected. *)
Definition wrap_name (f : form) : string :=
  match f with
  | Word _ => "atom_term"
  | Placeholder _ _ => "variable_term"
  | Operator _ | Interval _ | Bare _ _ => ""
  | Relation _ _ _ _ | Invocation _ _ | Application _ _ => "statement_term"
  | _ => "compound_term"
  end.

Definition wrap (f : form) (a : ast) : ast :=
  if (wrap_name f =? "")%string then a else Node (wrap_name f) [a].

Fixpoint core (f : form) : ast :=
  let term f := wrap f (core f) in
  match f with
  | Word s => leaf s
  | Placeholder k s => Node (variable_name k) [leaf s]
  | Operator s => Node "operation" [leaf s]
  | Interval s => Node "interval" [Leaf "integer" s]
  | Relation _ c a b => Node "statement" [term a; Node (copula_name c) []; term b]
  | Invocation s l => Node "statement_operation1" (Node "operation" [leaf s] :: map term l)
  | Application s l => Node "statement_operation2" (leaf s :: map term l)
  | Braces c l => Node "set" (con_node c :: map term l)
  | Negated f => Node "negation" [con_node Negation; term f]
  | Prefixed c l => Node (prefix_name c) (con_node c :: map term l)
  | Tuple l => Node "multi_prefix_product" (map term l)
  | Joined c l =>
      if is_difference c then
        match l with
        | [a; b] => Node "single_infix" [term a; con_node c; term b]
        | _ => Node "" []
        end
      else Node "multi_infix" [Node (expr_name c) (map term l)]
  | Bare c l => Node (expr_name c) (map term l)
  end.

Definition term_node (f : form) : ast := wrap f (core f).

(* The grammar symbol of a form, and the production that makes a term of it. *)
Definition category (f : form) : Z :=
  match f with
  | Word _ => 200 | Placeholder _ _ => 196 | Operator _ => 204 | Interval _ => 195
  | Relation _ _ _ _ | Invocation _ _ | Application _ _ => 227
  | Bare _ _ => 166
  | _ => 194
  end.

Definition wrap_rule (f : form) : nat :=
  match f with
  | Word _ => 64 | Operator _ => 67 | Interval _ => 63
  | Relation _ _ _ _ | Invocation _ _ | Application _ _ => 66
  | _ => 65
  end.

Definition bare (f : form) : bool := match f with Bare _ _ => true | _ => false end.
Definition is_variable (f : form) : bool := match f with Placeholder _ _ => true | _ => false end.

(** * Induction *)

Lemma form_ind' (P : form -> Prop) :
  (forall s, P (Word s)) -> (forall k s, P (Placeholder k s)) -> (forall s, P (Operator s)) -> (forall s, P (Interval s)) ->
  (forall x c a b, P a -> P b -> P (Relation x c a b)) ->
  (forall s l, Forall P l -> P (Invocation s l)) -> (forall s l, Forall P l -> P (Application s l)) ->
  (forall c l, Forall P l -> P (Braces c l)) -> (forall f, P f -> P (Negated f)) ->
  (forall c l, Forall P l -> P (Prefixed c l)) -> (forall l, Forall P l -> P (Tuple l)) ->
  (forall c l, Forall P l -> P (Joined c l)) -> (forall c l, Forall P l -> P (Bare c l)) ->
  forall f, P f.
Proof.
  intros H1 H2 H3 H4 H5 H6 H7 H8 H9 H10 H11 H12 H13. fix IH 1.
  assert (A : forall l, Forall P l) by (fix IHl 1; intros [|f l]; constructor; [apply IH|apply IHl]).
  intros [s|k s|s|s|x c a b|s l|s l|c l|f|c l|l|c l|c l];
    [apply H1|apply H2|apply H3|apply H4|apply H5|apply H6|apply H7|apply H8|apply H9|apply H10|apply H11|apply H12|apply H13];
    first [apply A | apply IH].
Qed.

(** * Derivations *)

Definition sign_ok (x : Z) (s : string) : bool :=
  match nth_error rules (Z.to_nat (328 - x)) with
  | Some (y, [sym; b], name) =>
      (x =? y) && (b =? 117) && (name =? "")%string && ordinary (Z.to_nat (328 - x)) && (0 <=? sym) && (sym <? 58)
      && (token_name sym =? "")%string && fits (lexeme sym) (chars s)
  | _ => false
  end.

Lemma made_sign x s n : sign_ok x s = true -> made x [] [(chars s, n)].
Proof.
  unfold sign_ok. destruct (nth_error rules (Z.to_nat (328 - x))) as [[[y rhs] name]|] eqn:N; [|discriminate].
  destruct rhs as [|sym [|b [|]]]; try discriminate. rewrite !andb_true_iff. intros [[[[[[[X B] M] O] L] H] T] F].
  apply Z.eqb_eq in X, B. apply String.eqb_eq in M, T. subst y b name.
  refine (made_fixed _ _ _ _ _ N O _ T F). lia.
Qed.

Ltac sgn s n := refine (made_sign _ s n _); vm_compute; reflexivity.

Lemma made_one r x y name s n : nth_error rules r = Some (x, [y], name) -> ordinary r && negb (name =? "")%string && sign_ok y s = true ->
  made x [Node name []] [(chars s, n)].
Proof.
  rewrite !andb_true_iff, negb_true_iff. intros N [[O E] S].
  pose proof (made_node r x [y] name ([] ++ []) ([(chars s, n)] ++ []) N O) as M. rewrite E in M. apply M.
  constructor; [apply made_sign, S|constructor].
Qed.

Ltac single r := refine (made_one r _ _ _ _ _ eq_refl _); vm_compute; reflexivity.

(* A node of a production, the parts to be found. *)
Lemma made_rule r x rhs name a ws a' ws' : nth_error rules r = Some (x, rhs, name) -> ordinary r = true ->
  all_made rhs a ws -> (if (name =? "")%string then a else [Node name a]) = a' -> ws = ws' -> made x a' ws'.
Proof. intros N O A <- <-. eapply made_node; eassumption. Qed.

Ltac tidy := cbn [app String.eqb Ascii.eqb Bool.eqb]; repeat (rewrite <- ?app_assoc; cbn [app]); rewrite ?app_nil_r; reflexivity.
Ltac node r := refine (made_rule r _ _ _ _ _ _ _ eq_refl eq_refl _ _ _).
Ltac kid := eapply AM_cons.
Ltac done := apply AM_nil.

Ltac cut E :=
  match type of E with
  | map fst ?ws = _ :: _ =>
      let w := fresh "w" in let n := fresh "n" in let ws' := fresh "ws" in
      destruct ws as [|[w n] ws']; [discriminate E|]; cbn [map fst] in E; injection E as -> E
  | map fst ?ws = _ ++ _ =>
      let w1 := fresh "ws" in let w2 := fresh "ws" in let E1 := fresh "E" in
      apply map_eq_app in E as (w1 & w2 & -> & E1 & E)
  | map fst ?ws = [] => apply map_eq_nil in E; subst ws
  end.

(* Words *)
Lemma plain_in c : plain_char c -> in_ranges (map (fun x => (x, x)) special) (code c) = false.
Proof.
  intros (R & N). apply not_true_iff_false. intros I. apply N. clear N.
  destruct c as [[] [] [] [] [] [] [] []]; vm_compute in I; try discriminate I; cbn; auto 40.
Qed.

Lemma code_nat c : (nat_of_ascii c < 128)%nat -> code c = Z.of_nat (nat_of_ascii c).
Proof.
  intros H. destruct c as [[] [] [] [] [] [] [] []]; first [reflexivity | exfalso; vm_compute in H; lia].
Qed.

Lemma chars_append a b : chars (a ++ b)%string = chars a ++ chars b.
Proof. induction a as [|c a IH]; [reflexivity|]. cbn. rewrite IH. reflexivity. Qed.

Lemma plain_matches s : plain s -> matches plain_word (chars s).
Proof.
  intros (N & F). destruct s as [|c s]; [congruence|]. cbn [list_ascii_of_string] in *. clear N.
  assert (S : forall l, Forall plain_char l -> matches (Star (Except (map (fun x => (x, x)) special))) l).
  { intros l H. induction H as [|d l P _ IH]; [constructor|].
    apply (Grammar.M_more _ [d] l); [|exact IH]. constructor; [apply plain_in, P|].
    destruct P as (R & _). rewrite code_nat by lia. lia. }
  inversion F as [|? ? P F' E]; subst. unfold plain_word, plus. apply (M_cat _ _ [c] (chars s)); [|apply S, F'].
  constructor; [apply plain_in, P|]. destruct P as (R & _). rewrite code_nat by lia. lia.
Qed.

Lemma quotes_match s : in_quotes s -> matches quoted (chars s).
Proof.
  intros (w & -> & F). rewrite !chars_append. cbn [list_ascii_of_string].
  apply (M_cat _ _ [""""%char] (chars w ++ [""""%char])); [constructor; reflexivity|].
  apply M_cat; [|constructor; reflexivity].
  induction F as [|c l (R & Q & B) _ IH]; [constructor|].
  apply (Grammar.M_more _ [c] l); [|exact IH]. apply (M_cat _ _ [c] []).
  - constructor; [|rewrite code_nat by lia; lia]. apply not_true_iff_false. intros I.
    destruct c as [[] [] [] [] [] [] [] []]; vm_compute in I; try discriminate I; [apply Q|apply B]; reflexivity.
  - unfold opt. apply M_left. constructor.
Qed.

Lemma string_chars s : string_of_list_ascii (chars s) = s.
Proof. apply string_of_list_ascii_of_string. Qed.

Lemma word_made s n : word s -> made 200 [leaf s] [(chars s, n)].
Proof.
  intros [P|Q].
  - enough (M' : made 100 [leaf s] [(chars s, n)]).
    { node 205%nat; [kid; [node 204%nat; [kid; [exact M'|done]|tidy|tidy]|done]|tidy|tidy]. }
    pose proof (made_token 228 100 3 (chars s) n eq_refl eq_refl ltac:(lia) (plain_matches s P)) as M.
    refine (made_conv _ _ _ _ _ M _ eq_refl). unfold leaf_of. cbn [token_name String.eqb]. rewrite string_chars.
    destruct P as (N & F). destruct s as [|c s]; [congruence|]. cbn [list_ascii_of_string] in F. apply Forall_inv in F.
    unfold leaf. destruct c as [[] [] [] [] [] [] [] []]; try reflexivity.
    exfalso. apply (proj2 F). cbn. auto 40.
  - enough (M' : made 101 [leaf s] [(chars s, n)]).
    { node 205%nat; [kid; [node 203%nat; [kid; [exact M'|done]|tidy|tidy]|done]|tidy|tidy]. }
    pose proof (made_token 227 101 6 (chars s) n eq_refl eq_refl ltac:(lia) (quotes_match s Q)) as M.
    refine (made_conv _ _ _ _ _ M _ eq_refl). unfold leaf_of. cbn [token_name String.eqb]. rewrite string_chars.
    destruct Q as (w & -> & _). reflexivity.
Qed.

Lemma digit_code c : decimal_digit c -> in_ranges [(48, 57)] (code c) = true.
Proof.
  intros H. unfold decimal_digit in H. destruct c as [[] [] [] [] [] [] [] []]; vm_compute in H; first [exfalso; destruct H as [H1 H2]; first [apply H1; reflexivity | apply H2; reflexivity] | vm_compute; reflexivity].
Qed.

Lemma digits_star l : Forall decimal_digit l -> matches (Star digits) l.
Proof.
  induction 1 as [|c l D _ IH]; [constructor|]. apply (Grammar.M_more _ [c] l); [|exact IH]. constructor. apply digit_code, D.
Qed.

Lemma digits_plus l : l <> [] -> Forall decimal_digit l -> matches (plus digits) l.
Proof.
  intros N F. destruct F as [|c l D F]; [congruence|]. apply (M_cat _ _ [c] l); [|apply digits_star, F].
  constructor. apply digit_code, D.
Qed.

Lemma whole_matches l n : whole l n -> matches integer l.
Proof.
  intros [a N F|a N F].
  - apply (M_cat _ _ [] a); [apply M_left; constructor|]. apply digits_plus; assumption.
  - apply (M_cat _ _ ["-"%char] a); [apply M_right; constructor; reflexivity|]. apply digits_plus; assumption.
Qed.

Lemma integer_made s m n : whole (chars s) m -> made 111 [Leaf "integer" s] [(chars s, n)].
Proof.
  intros H. pose proof (made_token 217 111 57 (chars s) n eq_refl eq_refl ltac:(lia) (whole_matches _ _ H)) as M.
  refine (made_conv _ _ _ _ _ M _ eq_refl). unfold leaf_of. cbn [token_name String.eqb]. rewrite string_chars. reflexivity.
Qed.

Lemma copula_made c n : made 206 [Node (copula_name c) []] [(chars (copula_sign c), n)].
Proof.
  destruct c; [single 49%nat|single 50%nat|single 51%nat|single 52%nat|single 53%nat|single 54%nat|single 55%nat|single 56%nat
    |single 57%nat|single 58%nat|single 59%nat|single 60%nat].
Qed.

(** * Terms *)

Lemma wrapped f ws : bare f = false -> is_variable f = false -> made (category f) [core f] ws ->
  exists t, builds (Derived (wrap_rule f) [t]) 228 [term_node f] ws.
Proof.
  intros B V (t & M). exists t.
  assert (A : all_build [t] [category f] [core f] ws).
  { rewrite <- (app_nil_r [core f]), <- (app_nil_r ws). constructor; [exact M|constructor]. }
  destruct f; try discriminate B; try discriminate V; cbn [wrap_rule];
    match goal with |- builds (Derived ?r _) _ _ _ => exact (build_node r _ _ _ _ _ _ eq_refl (ordinary_suits r _ eq_refl) A) end.
Qed.

Lemma wrap_rule_range f : wrap_rule f = 63%nat \/ wrap_rule f = 64%nat \/ wrap_rule f = 65%nat
  \/ wrap_rule f = 66%nat \/ wrap_rule f = 67%nat.
Proof. destruct f; cbn; auto. Qed.

Lemma wrapped_term f ws : bare f = false -> made (category f) [core f] ws -> made 207 [term_node f] ws.
Proof.
  intros B M. destruct (is_variable f) eqn:V.
  - destruct f; try discriminate V. node 61%nat; [kid; [exact M|done]| |]; tidy.
  - destruct (wrapped f ws B V M) as (t & W). node 62%nat; [kid; [eexists; exact W|done]| |]; tidy.
Qed.

(* The first component of a tuple. *)
Lemma wrapped_first f ws : bare f = false -> ~ operator f -> made (category f) [core f] ws ->
  exists t, builds t 207 [term_node f] ws /\ suits 2 t = true.
Proof.
  intros B O M. destruct (is_variable f) eqn:V.
  - destruct f; try discriminate V. destruct M as (t & M).
    assert (A : all_build [t] [196] [core (Placeholder k s)] ws).
    { rewrite <- (app_nil_r [core _]), <- (app_nil_r ws). constructor; [exact M|constructor]. }
    apply (build_node 61 _ _ _ _ _ _ eq_refl (ordinary_suits 61 _ eq_refl)) in A. eexists. split; [exact A|].
    rewrite suits_two by discriminate. apply b_suits in A. exact A.
  - destruct (wrapped f ws B V M) as (t & W).
    assert (A : all_build [Derived (wrap_rule f) [t]] [228] [term_node f] ws).
    { rewrite <- (app_nil_r [term_node f]), <- (app_nil_r ws). constructor; [exact W|constructor]. }
    apply (build_node 62 _ _ _ _ _ _ eq_refl (ordinary_suits 62 _ eq_refl)) in A. eexists. split; [exact A|].
    rewrite term_suits. cbn [Nat.eqb]. rewrite suits_two.
    + apply b_suits in W. exact W.
    + destruct f; try discriminate. exfalso. apply O. eexists. reflexivity.
    + destruct (wrap_rule_range f) as [ -> | [ -> | [ -> | [ -> | -> ] ] ] ]; discriminate.
Qed.

Definition good (f : form) : Prop := forall ws, map fst ws = map chars (spelling f) -> made (category f) [core f] ws.

Lemma proper_bare f : proper f -> bare f = false.
Proof. intros []; reflexivity. Qed.

Lemma good_term f : proper f -> good f -> term_made term_node f.
Proof. intros P G ws E. apply wrapped_term; [apply proper_bare, P|apply G, E]. Qed.

Definition goods (l : list form) : Prop := Forall (fun f => (proper f -> good f) /\ (operand f -> good f)) l.

Lemma goods_terms l : Forall proper l -> goods l -> Forall (term_made term_node) l.
Proof.
  intros P G. induction P as [|f l Pf _ IH]; [constructor|]. inversion G as [|? ? [Gf _] Gl]; subst.
  constructor; [apply good_term; auto|auto].
Qed.

(* A component of a difference. *)
Lemma operand_made f ws : operand f -> (operand f -> good f) -> map fst ws = map chars (spelling f) ->
  made 154 [term_node f] ws /\ made 153 [term_node f] ws /\ made 152 [term_node f] ws /\ made 151 [term_node f] ws.
Proof.
  intros O G E. pose proof (G O ws E) as M. destruct O as [f P|c l I L P].
  - pose proof (wrapped_term f ws (proper_bare f P) M) as T. repeat split;
    [node 123%nat|node 125%nat|node 128%nat|node 130%nat]; try (kid; [exact T|done]); tidy.
  - repeat split; [node 124%nat|node 126%nat|node 129%nat|node 131%nat]; try (kid; [exact M|done]); tidy.
Qed.

Lemma listing_made c n : listing c -> made 163 [con_node c] [(chars (sign c), n)].
Proof.
  intros [ <- | [ <- | [ <- | [ <- | [ <- | [ <- | [] ] ] ] ] ] ];
    [single 167%nat|single 168%nat|single 169%nat|single 170%nat|single 171%nat|single 172%nat].
Qed.

Lemma difference_made c n : difference c -> made 155 [con_node c] [(chars (sign c), n)].
Proof. intros [ -> | -> ]; [single 174%nat|single 175%nat]. Qed.

Lemma commas_cons f l : interspersed "," (map spelling (f :: l)) = spelling f ++ tail_spelling "," l.
Proof. cbn [map]. rewrite interspersed_cons. reflexivity. Qed.

(* What follows the first component in an infix compound. *)
Lemma expression_made c f l ws : infix c -> l <> [] -> Forall (term_made term_node) (f :: l) ->
  map fst ws = map chars (spelling f ++ tail_spelling (sign c) l) -> made 166 [Node (expr_name c) (map term_node (f :: l))] ws.
Proof.
  intros I N F E. rewrite map_app in E. cut E. inversion F as [|? ? F1 Fl]; subst. specialize (F1 _ E0).
  assert (C : In c [Conjunction; Disjunction; ParallelEvents; SequentialEvents; IntensionalIntersection; ExtensionalIntersection; Product]).
  { destruct I as [I| -> ]; [|cbn; auto 10]. unfold listing in I. cbn in I |- *. tauto. }
  clear I. cbn in C. destruct C as [ <- | [ <- | [ <- | [ <- | [ <- | [ <- | [ <- | [] ] ] ] ] ] ] ].
  - node 136%nat; [kid; [node 147%nat; [kid; [exact F1|kid; [refine (plus_made term_node "&&" 249 148 149 150 23 79 139 138 eq_refl eq_refl _ eq_refl eq_refl eq_refl eq_refl eq_refl eq_refl eq_refl eq_refl l N Fl _ E); lia|done]]|tidy|tidy]|done]|tidy|tidy].
  - node 137%nat; [kid; [node 143%nat; [kid; [exact F1|kid; [refine (plus_made term_node "||" 248 144 145 146 24 80 141 140 eq_refl eq_refl _ eq_refl eq_refl eq_refl eq_refl eq_refl eq_refl eq_refl eq_refl l N Fl _ E); lia|done]]|tidy|tidy]|done]|tidy|tidy].
  - node 134%nat; [kid; [node 155%nat; [kid; [exact F1|kid; [refine (plus_made term_node "&|" 251 156 157 158 21 77 135 134 eq_refl eq_refl _ eq_refl eq_refl eq_refl eq_refl eq_refl eq_refl eq_refl eq_refl l N Fl _ E); lia|done]]|tidy|tidy]|done]|tidy|tidy].
  - node 135%nat; [kid; [node 151%nat; [kid; [exact F1|kid; [refine (plus_made term_node "&/" 250 152 153 154 22 78 137 136 eq_refl eq_refl _ eq_refl eq_refl eq_refl eq_refl eq_refl eq_refl eq_refl eq_refl l N Fl _ E); lia|done]]|tidy|tidy]|done]|tidy|tidy].
  - node 133%nat; [kid; [node 159%nat; [kid; [exact F1|kid; [refine (plus_made term_node "|" 252 160 161 162 20 76 133 132 eq_refl eq_refl _ eq_refl eq_refl eq_refl eq_refl eq_refl eq_refl eq_refl eq_refl l N Fl _ E); lia|done]]|tidy|tidy]|done]|tidy|tidy].
  - node 132%nat; [kid; [node 163%nat; [kid; [exact F1|kid; [refine (plus_made term_node "&" 253 164 165 166 19 75 131 130 eq_refl eq_refl _ eq_refl eq_refl eq_refl eq_refl eq_refl eq_refl eq_refl eq_refl l N Fl _ E); lia|done]]|tidy|tidy]|done]|tidy|tidy].
  - node 138%nat; [kid; [node 139%nat; [kid; [exact F1|kid; [refine (plus_made term_node "*" 247 140 141 142 25 81 143 142 eq_refl eq_refl _ eq_refl eq_refl eq_refl eq_refl eq_refl eq_refl eq_refl eq_refl l N Fl _ E); lia|done]]|tidy|tidy]|done]|tidy|tidy].
Qed.
