(* Every proper form, spread with any number of spaces, has a derivation. *)
From Coq Require Import ZArith String Ascii List Bool Lia.
From Verif Require Import Base Enums Term Tables Parser ParserSpec Grammar GrammarSpec NumeralSpec LexFacts LexFacts2 ParserCert ParserFacts ParserFacts2.
From Verif Require Import ParserFacts10 ParserFacts11 ParserFacts12 ParserFacts13 ParserCases2 Actions ActionsSpec PrinterSpec Forms.
Import ListNotations.
Open Scope string_scope.
Open Scope list_scope.
Open Scope Z_scope.

Notation chars := list_ascii_of_string.

(** * Trees *)

Definition pieces := list (list ascii * nat).
Definition written_out (ws : pieces) : list ascii := concat (map (fun p => fst p ++ spaces (snd p)) ws).

Lemma written_app a b : written_out (a ++ b) = written_out a ++ written_out b.
Proof. unfold written_out. rewrite map_app, concat_app. reflexivity. Qed.

Record builds (t : tree) (x : Z) (a : list ast) (ws : pieces) : Prop := Builds {
  b_derivation : derivation t;
  b_root : root t = x;
  b_suits : suits 0 t = true;
  b_projection : projection t = a;
  b_text : text_of t = written_out ws;
  b_spaced : spaced (tokens t)
}.

Inductive all_build : list tree -> list Z -> list ast -> pieces -> Prop :=
  | AB_nil : all_build [] [] [] []
  | AB_cons t ts x xs a b ws vs : builds t x a ws -> all_build ts xs b vs ->
      all_build (t :: ts) (x :: xs) (a ++ b) (ws ++ vs).

Lemma spaced_app a b : spaced a -> spaced b -> spaced (a ++ b).
Proof. intros A B w I. apply in_app_iff in I as [I|I]; [apply A|apply B]; exact I. Qed.

Lemma all_build_facts ts xs a ws : all_build ts xs a ws ->
  map root ts = xs /\ Forall derivation ts /\ forallb (suits 0) ts = true /\ concat (map projection ts) = a
  /\ concat (map text_of ts) = written_out ws /\ spaced (concat (map tokens ts)).
Proof.
  induction 1 as [|t ts x xs a b ws vs B _ (R & D & S & P & T & K)].
  - cbn. repeat split; auto. intros w [].
  - destruct B as [D1 R1 S1 P1 T1 K1]. cbn [map forallb concat]. rewrite R, R1, S, S1, P, P1, T, T1, written_app.
    repeat split; auto. apply spaced_app; assumption.
Qed.

Lemma build_node r x rhs name kids a ws : nth_error rules r = Some (x, rhs, name) -> suits 0 (Derived r kids) = forallb (suits 0) kids ->
  all_build kids rhs a ws -> builds (Derived r kids) x (if (name =? "")%string then a else [Node name a]) ws.
Proof.
  intros N O A. destruct (all_build_facts _ _ _ _ A) as (R & D & S & P & T & K). constructor.
  - eapply D_derived; [exact N|exact R|exact D].
  - cbn [root]. rewrite N. reflexivity.
  - rewrite O. exact S.
  - cbn [projection]. rewrite N, P. reflexivity.
  - cbn [text_of]. exact T.
  - exact K.
Qed.

Definition made (x : Z) (a : list ast) (ws : pieces) : Prop := exists t, builds t x a ws.

Inductive all_made : list Z -> list ast -> pieces -> Prop :=
  | AM_nil : all_made [] [] []
  | AM_cons x xs a b ws vs : made x a ws -> all_made xs b vs -> all_made (x :: xs) (a ++ b) (ws ++ vs).

Lemma all_made_build xs a ws : all_made xs a ws -> exists ts, all_build ts xs a ws.
Proof.
  induction 1 as [|x xs a b ws vs (t & B) _ (ts & A)].
  - exists []. constructor.
  - exists (t :: ts). constructor; assumption.
Qed.

Lemma made_node r x rhs name a ws : nth_error rules r = Some (x, rhs, name) -> ordinary r = true ->
  all_made rhs a ws -> made x (if (name =? "")%string then a else [Node name a]) ws.
Proof.
  intros N O A. destruct (all_made_build _ _ _ A) as (ts & B). eexists. eapply build_node; [exact N| |exact B].
  apply ordinary_suits, O.
Qed.

Lemma made_text x a ws ws' : made x a ws -> written_out ws = written_out ws' -> made x a ws'.
Proof. intros (t & [D R S P T K]) E. exists t. constructor; auto. congruence. Qed.

Lemma made_conv x a ws a' ws' : made x a ws -> a = a' -> ws = ws' -> made x a' ws'.
Proof. intros M <- <-. exact M. Qed.

(** * Tokens *)

Lemma made_blank n : made 117 [] [([], n)].
Proof.
  destruct n as [|n].
  - apply (made_text 117 [] []); [|reflexivity]. refine (made_node 211 117 [] "" [] [] eq_refl eq_refl _). constructor.
  - assert (P : made 118 [] [([], S n)]).
    { induction n as [|n IH].
      - exists (Derived 209 [Derived 207 [Token 58 [" "%char]]]). constructor.
        + apply follows_derivation. vm_compute. reflexivity.
        + reflexivity.
        + reflexivity.
        + reflexivity.
        + reflexivity.
        + intros w [E|[]]. injection E as <-. reflexivity.
      - apply (made_text 118 [] ([([], S n)] ++ [([], 1%nat)] ++ [])).
        2: { unfold written_out. cbn [map concat app fst snd]. rewrite app_nil_r. unfold spaces.
             rewrite <- repeat_app. rewrite !app_nil_r. f_equal. lia. }
        refine (made_node 208 118 [118; 119] "" ([] ++ [] ++ []) _ eq_refl eq_refl _). constructor; [exact IH|]. constructor; [|constructor].
        exists (Derived 207 [Token 58 [" "%char]]). constructor.
        + apply follows_derivation. vm_compute. reflexivity.
        + reflexivity.
        + reflexivity.
        + reflexivity.
        + reflexivity.
        + intros w [E|[]]. injection E as <-. reflexivity. }
    refine (made_conv _ _ _ _ _ (made_node 210 117 [118] "" ([] ++ []) ([([], S n)] ++ []) eq_refl eq_refl _) eq_refl eq_refl).
    constructor; [exact P|constructor].
Qed.

Definition leaf_of (sym : Z) (w : list ascii) : list ast :=
  if (token_name sym =? "")%string then [] else [Leaf (token_name sym) (string_of_list_ascii w)].

Lemma made_token r x sym w n : nth_error rules r = Some (x, [sym; 117], "") -> ordinary r = true -> 0 <= sym < 58 ->
  matches (lexeme sym) w -> made x (leaf_of sym w) [(w, n)].
Proof.
  intros N O B M. apply (made_text x (leaf_of sym w) ([(w, 0%nat)] ++ [([], n)] ++ [])).
  2: { unfold written_out. cbn [map concat app fst snd]. rewrite !app_nil_r. reflexivity. }
  rewrite <- (app_nil_r (leaf_of sym w)). rewrite <- (app_nil_r []).
  refine (made_node r x [sym; 117] "" _ _ N O _). constructor; [|constructor; [apply made_blank|constructor]].
  exists (Token sym w). constructor.
  - constructor; [lia|exact M].
  - reflexivity.
  - reflexivity.
  - reflexivity.
  - unfold written_out. cbn. rewrite !app_nil_r. reflexivity.
  - intros v [E|[]]. injection E as E _. lia.
Qed.

(* A terminal with a fixed text. *)
Lemma made_fixed r x sym s n : nth_error rules r = Some (x, [sym; 117], "") -> ordinary r = true -> 0 <= sym < 58 ->
  token_name sym = "" -> fits (lexeme sym) (chars s) = true -> made x [] [(chars s, n)].
Proof.
  intros N O B T F. pose proof (made_token r x sym (chars s) n N O B (fits_matches _ _ F)) as M.
  unfold leaf_of in M. rewrite T in M. exact M.
Qed.

(** * Lists *)

Lemma interspersed_cons b x l : interspersed b (x :: l) = x ++ concat (map (fun y => b :: y) l).
Proof.
  revert x. induction l as [|y l IH]; intros x; [cbn; symmetry; apply app_nil_r|].
  change (interspersed b (x :: y :: l)) with (x ++ b :: interspersed b (y :: l)). rewrite IH. reflexivity.
Qed.

(* What a form written as a term gives. *)
Definition term_made (g : form -> ast) (f : form) : Prop :=
  forall ws, map fst ws = map chars (spelling f) -> made 207 [g f] ws.

Section Lists.
Variable g : form -> ast.
Variable sep : string.
Variables sep_rule item more one : nat.
Variables sep_sym sep_x xi xp : Z.
Hypothesis Nsep : nth_error rules sep_rule = Some (sep_x, [sep_sym; 117], "").
Hypothesis Osep : ordinary sep_rule = true.
Hypothesis Bsep : 0 <= sep_sym < 58.
Hypothesis Tsep : token_name sep_sym = "".
Hypothesis Fsep : fits (lexeme sep_sym) (chars sep) = true.
Hypothesis Nitem : nth_error rules item = Some (xi, [sep_x; 207], "").
Hypothesis Nmore : nth_error rules more = Some (xp, [xp; xi], "").
Hypothesis None_ : nth_error rules one = Some (xp, [xi], "").
Hypothesis Oitem : ordinary item = true.
Hypothesis Omore : ordinary more = true.
Hypothesis Oone : ordinary one = true.

Definition tail_spelling (l : list form) : list string := concat (map (fun y => sep :: y) (map spelling l)).

Lemma item_made f ws : term_made g f -> map fst ws = map chars (sep :: spelling f) -> made xi [g f] ws.
Proof using sep_rule sep_sym sep_x item Nsep Osep Bsep Tsep Fsep Nitem Oitem.
  intros F E. cbn [map] in E. destruct ws as [|[w n] ws]; [discriminate E|]. cbn [map fst] in E. injection E as -> E.
  refine (made_conv _ _ _ _ _ (made_node item xi [sep_x; 207] "" ([] ++ [g f] ++ []) ([(chars sep, n)] ++ ws ++ []) Nitem Oitem _) _ _).
  - constructor; [exact (made_fixed _ _ _ _ _ Nsep Osep Bsep Tsep Fsep)|]. constructor; [apply F, E|constructor].
  - reflexivity.
  - cbn [app]. rewrite app_nil_r. reflexivity.
Qed.

Lemma plus_made l : l <> [] -> Forall (term_made g) l ->
  forall ws, map fst ws = map chars (tail_spelling l) -> made xp (map g l) ws.
Proof using sep_rule sep_sym sep_x item more one xi Nsep Osep Bsep Tsep Fsep Nitem Oitem Nmore Omore None_ Oone.
  induction l as [|f l IH] using rev_ind; [congruence|]. intros _ F ws E.
  apply Forall_app in F as [Fl Ff]. apply Forall_inv in Ff.
  unfold tail_spelling in E. rewrite !map_app, concat_app, map_app in E. apply map_eq_app in E as (w1 & w2 & -> & E1 & E2).
  cbn [map concat] in E2. rewrite app_nil_r in E2.
  pose proof (item_made f w2 Ff E2) as I. destruct l as [|f0 l].
  - apply map_eq_nil in E1. subst w1. cbn [app].
    refine (made_conv _ _ _ _ _ (made_node one xp [xi] "" ([g f] ++ []) (w2 ++ []) None_ Oone _) eq_refl (app_nil_r _)).
    constructor; [exact I|constructor].
  - specialize (IH ltac:(discriminate) Fl w1 E1).
    refine (made_conv _ _ _ _ _ (made_node more xp [xp; xi] "" (map g (f0 :: l) ++ [g f] ++ []) (w1 ++ w2 ++ []) Nmore Omore _) _ _).
    + constructor; [exact IH|]. constructor; [exact I|constructor].
    + cbn [eqb]. rewrite map_app. reflexivity.
    + rewrite app_nil_r. reflexivity.
Qed.
End Lists.

Section Stars.
Variable g : form -> ast.
Variables item more one some none : nat.
Variables xi xp xs : Z.
Hypothesis Nitem : nth_error rules item = Some (xi, [104; 207], "").
Hypothesis Nmore : nth_error rules more = Some (xp, [xp; xi], "").
Hypothesis None_ : nth_error rules one = Some (xp, [xi], "").
Hypothesis Nsome : nth_error rules some = Some (xs, [xp], "").
Hypothesis Nnone : nth_error rules none = Some (xs, [], "").
Hypothesis O : forallb ordinary [item; more; one; some; none] = true.

Lemma star_made l : Forall (term_made g) l ->
  forall ws, map fst ws = map chars (tail_spelling "," l) -> made xs (map g l) ws.
Proof using item more one some none xi xp Nitem Nmore None_ Nsome Nnone O.
  intros F ws E. cbn [forallb] in O. repeat (apply andb_true_iff in O as [? O]).
  destruct l as [|f l].
  - apply map_eq_nil in E. subst ws. refine (made_node none xs [] "" [] [] Nnone _ _); [assumption|constructor].
  - refine (made_conv _ _ _ _ _ (made_node some xs [xp] "" (map g (f :: l) ++ []) (ws ++ []) Nsome _ _) (app_nil_r _) (app_nil_r _)); [assumption|].
    constructor; [|constructor].
    refine (plus_made g "," 224 item more one 47 104 xi xp eq_refl eq_refl _ eq_refl _ Nitem Nmore None_ _ _ _ (f :: l) _ F ws E); auto; try discriminate.
    lia.
Qed.
End Stars.
