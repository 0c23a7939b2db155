(* Which lines the reader gives to the parser. *)
From Coq Require Import ZArith String Ascii List Bool Lia.
From Verif Require Import Base Enums Term PrinterFacts GenerateSpec GenerateFacts Reader ReaderSpec.
From Verif Require Parser Sessions Interning Term Compound.
Import ListNotations.
Open Scope string_scope.
Open Scope list_scope.
Local Open Scope Z_scope.

Lemma code_ascii c n : 0 <= n < 128 -> (Parser.code c = n <-> Z.of_nat (nat_of_ascii c) = n).
Proof.
  intros B. unfold Parser.code. pose proof (nat_ascii_bounded c).
  destruct (Z.ltb_spec (Z.of_nat (nat_of_ascii c)) 128); lia.
Qed.

Lemma space_white c : is_space c = true <-> white c.
Proof.
  unfold is_space, white, Parser.code. pose proof (nat_ascii_bounded c). cbn [In].
  rewrite orb_true_iff, andb_true_iff, Z.eqb_eq, !Z.leb_le.
  destruct (Z.ltb_spec (Z.of_nat (nat_of_ascii c)) 128); lia.
Qed.

Lemma newline_is c : (Parser.code c =? 10) = true <-> c = newline.
Proof.
  rewrite Z.eqb_eq. split; [|intros ->; reflexivity]. intros E. apply code_ascii in E; [|lia].
  rewrite <- (ascii_nat_embedding c). replace (nat_of_ascii c) with 10%nat by lia. reflexivity.
Qed.

Lemma quote_is c : (Parser.code c =? 39) = true <-> c = "'"%char.
Proof.
  rewrite Z.eqb_eq. split; [|intros ->; reflexivity]. intros E. apply code_ascii in E; [|lia].
  rewrite <- (ascii_nat_embedding c). replace (nat_of_ascii c) with 39%nat by lia. reflexivity.
Qed.

(* ---- trimming ---- *)

Lemma trim_left_split l : exists a, l = a ++ trim_left l /\ Forall white a /\ (forall c r, trim_left l = c :: r -> ~ white c).
Proof.
  induction l as [|c l (a & E & W & N)]; [exists []; repeat split; [constructor|intros c r H; discriminate H]|].
  cbn [trim_left]. destruct (is_space c) eqn:S.
  - exists (c :: a). split; [cbn; congruence|]. split; [constructor; [apply space_white; exact S|exact W]|exact N].
  - exists []. split; [reflexivity|]. split; [constructor|]. intros d r H. injection H as <- <-. intros X. apply space_white in X. congruence.
Qed.

Lemma chars_back l : chars (string_of_list_ascii l) = l.
Proof. apply list_ascii_of_string_of_list_ascii. Qed.

Lemma trim_trimmed s : trimmed s (trim s).
Proof.
  unfold trim. destruct (trim_left_split (chars s)) as (a & E & W & N).
  destruct (trim_left_split (rev (trim_left (chars s)))) as (b & E' & W' & N').
  set (m := trim_left (rev (trim_left (chars s)))) in *.
  assert (L : trim_left (chars s) = rev m ++ rev b).
  { rewrite <- rev_app_distr, <- E', rev_involutive. reflexivity. }
  split; [|split].
  - exists (string_of_list_ascii a), (string_of_list_ascii (rev b)). rewrite !chars_back. split; [|split; [exact W|apply Forall_rev; exact W']].
    apply chars_inj. rewrite !chars_app, !chars_back, <- L. exact E.
  - intros c r H. assert (Q : rev m = c :: chars r) by (rewrite <- (chars_back (rev m)), H; reflexivity).
    rewrite Q in L. exact (N c _ L).
  - intros c r H. assert (Q : rev m = chars r ++ [c]) by (rewrite <- (chars_back (rev m)), H, chars_app; reflexivity).
    apply (f_equal (@rev _)) in Q. rewrite rev_involutive, rev_app_distr in Q. exact (N' c _ Q).
Qed.

Lemma white_front a b x y : Forall white a -> Forall white b -> a ++ x = b ++ y ->
  (forall c r, x = c :: r -> ~ white c) -> (forall c r, y = c :: r -> ~ white c) -> x = y.
Proof.
  revert b. induction a as [|c a IH]; intros [|d b] A B E X Y; cbn in E.
  - exact E.
  - exfalso. apply Forall_cons_iff in B. exact (X _ _ E (proj1 B)).
  - exfalso. apply Forall_cons_iff in A. exact (Y _ _ (eq_sym E) (proj1 A)).
  - injection E as -> E. apply Forall_cons_iff in A, B. exact (IH b (proj2 A) (proj2 B) E X Y).
Qed.

Lemma trimmed_one s x y : trimmed s x -> trimmed s y -> x = y.
Proof.
  intros ((a & b & E & A & B) & X1 & X2) ((a' & b' & E' & A' & B') & Y1 & Y2). apply chars_inj.
  assert (C : forall t : string, (forall c r, t = String c r -> ~ white c) -> forall c r, chars t = c :: r -> ~ white c).
  { intros t H c r Q. apply (H c (string_of_list_ascii r)). apply chars_inj. cbn. rewrite chars_back. exact Q. }
  assert (D : forall t : string, (forall c r, t = (r ++ String c "")%string -> ~ white c) -> forall c r, rev (chars t) = c :: r -> ~ white c).
  { intros t H c r Q. apply (H c (string_of_list_ascii (rev r))). apply chars_inj. rewrite chars_app, chars_back. cbn.
    apply (f_equal (@rev _)) in Q. rewrite rev_involutive in Q. cbn in Q. exact Q. }
  assert (Q : chars a ++ chars x ++ chars b = chars a' ++ chars y ++ chars b') by (rewrite <- !chars_app; congruence).
  (* all white: both empty *)
  assert (Em : forall u v w u' v' w' : list ascii, u ++ v ++ w = u' ++ v' ++ w' -> v = [] -> Forall white u -> Forall white w -> Forall white u' -> Forall white w' ->
     (forall c r, v' = c :: r -> ~ white c) -> v' = []).
  { intros u v w u' v' w' H -> U W U' W' N. destruct v' as [|c r]; [reflexivity|]. exfalso. apply (N c r eq_refl).
    assert (F : Forall white (u ++ [] ++ w)) by (apply Forall_app; split; assumption). rewrite H in F.
    apply Forall_app in F. destruct F as [_ F]. inversion F; assumption. }
  destruct (chars x) as [|cx rx] eqn:Ex.
  - symmetry. exact (Em _ _ _ _ _ _ Q eq_refl A B A' B' (C y Y1)).
  - destruct (chars y) as [|cy ry] eqn:Ey.
    { pose proof (C x X1) as C1. rewrite Ex in C1. exact (Em _ _ _ _ _ _ (eq_sym Q) eq_refl A' B' A B C1). }
    rewrite <- Ex, <- Ey in *.
    assert (F : chars x ++ chars b = chars y ++ chars b').
    { apply (white_front (chars a) (chars a')); [exact A|exact A'|exact Q| |].
      - intros c r H. rewrite Ex in H. cbn in H. apply (C x X1 c rx). rewrite Ex. injection H as -> _. reflexivity.
      - intros c r H. rewrite Ey in H. cbn in H. apply (C y Y1 c ry). rewrite Ey. injection H as -> _. reflexivity. }
    assert (G : rev (chars x) = rev (chars y)).
    { apply (white_front (rev (chars b)) (rev (chars b'))); [apply Forall_rev; exact B|apply Forall_rev; exact B'| |exact (D x X2)|exact (D y Y2)].
      rewrite <- !rev_app_distr, F. reflexivity. }
    rewrite <- (rev_involutive (chars x)), G, rev_involutive. reflexivity.
Qed.

Lemma trimmed_again s x : trimmed s x -> trim x = x.
Proof.
  intros (_ & X1 & X2). apply (trimmed_one x); [apply trim_trimmed|]. split; [|split; assumption].
  exists "", "". split; [rewrite app_empty; reflexivity|split; constructor].
Qed.

(* ---- numbers ---- *)

Lemma isdigits_ub x : isdigits x = UB <-> exists a c r, x = (a ++ String c r)%string /\ all_figures a /\ (128 <= nat_of_ascii c < 255)%nat.
Proof.
  induction x as [|c x IH].
  - split; [discriminate|]. intros (a & c & r & E & _). destruct a; discriminate E.
  - cbn [isdigits]. set (n := Z.of_nat (nat_of_ascii c)).
    pose proof (nat_ascii_bounded c) as Bc.
    destruct ((128 <=? n) && negb (n =? 255)) eqn:E1.
    + split; [|reflexivity]. intros _. exists "", c, x. split; [reflexivity|]. split; [constructor|].
      apply andb_true_iff in E1. destruct E1 as [E1 E2]. apply Z.leb_le in E1. apply negb_true_iff, Z.eqb_neq in E2. unfold n in *. lia.
    + assert (K : ~ (128 <= nat_of_ascii c < 255)%nat).
      { intros K. apply andb_false_iff in E1. destruct E1 as [E1|E1]; [apply Z.leb_gt in E1|apply negb_false_iff, Z.eqb_eq in E1]; unfold n in *; lia. }
      destruct ((48 <=? n) && (n <=? 57)) eqn:E2.
      * apply andb_true_iff in E2. rewrite !Z.leb_le in E2. rewrite IH. split.
        -- intros (a & d & r & -> & F & B). exists (String c a), d, r. split; [reflexivity|]. split; [|exact B].
           constructor; [unfold figure, n in *; lia|exact F].
        -- intros (a & d & r & E & F & B). destruct a as [|c' a]; cbn in E; injection E as <- E; [destruct (K B)|].
           exists a, d, r. split; [exact E|]. split; [inversion F; assumption|exact B].
      * split; [discriminate|]. intros (a & d & r & E & F & B). destruct a as [|c' a]; cbn in E; injection E as <- E; [destruct (K B)|].
        inversion F as [|? ? F1 F2]; subst. unfold figure in F1. apply andb_false_iff in E2. rewrite !Z.leb_gt in E2. unfold n in *. lia.
Qed.

Lemma isdigits_ok x b : isdigits x = Ok b -> (b = true <-> all_figures x).
Proof.
  revert b. induction x as [|c x IH]; intros b H; cbn [isdigits] in H.
  - injection H as <-. split; [intros _; constructor|reflexivity].
  - destruct ((128 <=? Z.of_nat (nat_of_ascii c)) && negb (Z.of_nat (nat_of_ascii c) =? 255)); [discriminate H|].
    destruct ((48 <=? Z.of_nat (nat_of_ascii c)) && (Z.of_nat (nat_of_ascii c) <=? 57)) eqn:E.
    + rewrite (IH b H). apply andb_true_iff in E. rewrite !Z.leb_le in E. unfold all_figures. cbn [list_ascii_of_string]. split.
      * intros F. constructor; [unfold figure; lia|exact F].
      * intros F. inversion F; assumption.
    + injection H as <-. split; [discriminate|]. intros F. inversion F as [|? ? F1 F2]; subst. unfold figure in F1.
      apply andb_false_iff in E. rewrite !Z.leb_gt in E. lia.
Qed.

Lemma isdigits_total x : isdigits x = UB \/ exists b, isdigits x = Ok b.
Proof.
  induction x as [|c x IH]; [right; exists true; reflexivity|]. cbn [isdigits].
  destruct (_ && negb _); [left; reflexivity|]. destruct (_ && _); [exact IH|right; exists false; reflexivity].
Qed.

Lemma comment_is x : is_comment x = true <-> comment x.
Proof.
  unfold is_comment, comment. destruct x as [|c x].
  - split; [discriminate|]. intros [r E]. discriminate E.
  - rewrite quote_is. split; [intros ->; exists x; reflexivity|]. intros [r E]. injection E as -> _. reflexivity.
Qed.

(* ---- one line ---- *)

Theorem sentence_undefined l : sentence_on l = UB <-> offending l.
Proof.
  unfold sentence_on, offending. split.
  - destruct (isdigits_total (trim l)) as [U|[b U]]; rewrite U; cbn [bind].
    + intros _. apply isdigits_ub in U. destruct U as (a & c & r & E & F & B). exists (trim l), a, c, r.
      split; [apply trim_trimmed|]. split; [exact E|split; assumption].
    + destruct b; [discriminate|]. destruct (is_comment (trim l)); [discriminate|].
      destruct (0 <? String.length (trim (trim l)))%nat; discriminate.
  - intros (x & a & c & r & T & E & F & B). rewrite (trimmed_one l (trim l) x (trim_trimmed l) T).
    rewrite (proj2 (isdigits_ub x)); [reflexivity|]. exists a, c, r. auto.
Qed.

Theorem sentence_found l : ~ offending l ->
  (carries_nothing l /\ sentence_on l = Ok None) \/ exists x, carries l x /\ sentence_on l = Ok (Some x).
Proof.
  intros N. unfold sentence_on. pose proof (trim_trimmed l) as T. destruct (isdigits_total (trim l)) as [U|[b U]].
  - destruct N. apply sentence_undefined. unfold sentence_on. rewrite U. reflexivity.
  - rewrite U. cbn [bind]. pose proof (isdigits_ok _ _ U) as D. destruct b.
    + left. split; [|reflexivity]. exists (trim l). split; [exact T|left; apply D; reflexivity].
    + destruct (is_comment (trim l)) eqn:C.
      * left. split; [|reflexivity]. exists (trim l). split; [exact T|right; apply comment_is; exact C].
      * right. exists (trim l). split.
        -- split; [exact T|]. split; [intros F; apply D in F; discriminate F|intros F; apply comment_is in F; congruence].
        -- rewrite (trimmed_again l (trim l) T). destruct (0 <? String.length (trim l))%nat eqn:L; [reflexivity|].
           apply Nat.ltb_ge in L. exfalso. destruct (trim l); [|cbn in L; lia]. discriminate U.
Qed.

Lemma carries_one l x y : carries l x -> carries l y -> x = y.
Proof. intros [X _] [Y _]. exact (trimmed_one l x y X Y). Qed.

Lemma carries_not l x : carries l x -> ~ carries_nothing l.
Proof.
  intros (X & F & C) (y & Y & [G|G]); rewrite <- (trimmed_one l x y X Y) in G; auto.
Qed.

(* ---- lines ---- *)

Lemma get_lines_closed l s : unbroken l -> get_lines (l ++ String newline s) = l :: get_lines s.
Proof.
  induction l as [|c l IH]; intros U.
  - cbn [append get_lines]. reflexivity.
  - cbn [append get_lines]. assert (N : Parser.code c =? 10 = false).
    { apply not_true_iff_false. intros E. apply U. left. apply newline_is. exact E. }
    rewrite N, IH; [reflexivity|]. intros I. apply U. right. exact I.
Qed.

Lemma get_lines_open l : unbroken l -> l <> "" -> get_lines l = [l].
Proof.
  induction l as [|c l IH]; intros U N; [destruct (N eq_refl)|]. cbn [get_lines].
  assert (Q : Parser.code c =? 10 = false).
  { apply not_true_iff_false. intros E. apply U. left. apply newline_is. exact E. }
  rewrite Q. destruct l as [|d l]; [reflexivity|]. rewrite IH; [reflexivity| |discriminate]. intros I. apply U. right. exact I.
Qed.

Lemma get_lines_is content ls : lines_in content ls -> get_lines content = ls.
Proof.
  intros [U [->|(ls' & l & -> & N & ->)]].
  - induction ls as [|l ls IH]; [reflexivity|]. apply Forall_cons_iff in U. cbn [as_lines fold_right].
    rewrite get_lines_closed by exact (proj1 U). fold (as_lines ls). rewrite (IH (proj2 U)). reflexivity.
  - apply Forall_app in U. destruct U as [U1 U2]. inversion U2 as [|? ? Ul _]; subst.
    induction ls' as [|k ls' IH]; [exact (get_lines_open l Ul N)|]. apply Forall_cons_iff in U1. cbn [as_lines fold_right app].
    fold (as_lines ls'). rewrite string_app_assoc. cbn [append]. rewrite get_lines_closed by exact (proj1 U1). rewrite (IH (proj2 U1)). reflexivity.
Qed.

Lemma lines_exist content : lines_in content (get_lines content).
Proof.
  induction content as [|c s IH]; [split; [constructor|left; reflexivity]|]. cbn [get_lines].
  destruct (Parser.code c =? 10) eqn:E.
  - apply newline_is in E. subst c. destruct IH as [U H]. split; [constructor; [intros []|exact U]|].
    destruct H as [H|(ls' & l & H1 & H2 & H3)].
    + left. cbn [as_lines fold_right append]. fold (as_lines (get_lines s)). congruence.
    + right. exists ("" :: ls'), l. split; [rewrite H1; reflexivity|]. split; [exact H2|]. cbn [as_lines fold_right append]. fold (as_lines ls'). congruence.
  - assert (C : c <> newline) by (intros ->; discriminate E).
    assert (Uc : forall l, unbroken l -> unbroken (String c l)) by (intros l U [I|I]; [exact (C I)|exact (U I)]).
    destruct IH as [U H]. destruct (get_lines s) as [|l r] eqn:G.
    + split; [constructor; [apply Uc; intros []|constructor]|]. right.
      destruct H as [H|(ls' & l & H1 & _)]; [|destruct ls'; discriminate H1]. exists [], (String c "").
      split; [reflexivity|]. split; [discriminate|]. rewrite H. reflexivity.
    + apply Forall_cons_iff in U. split; [constructor; [apply Uc; exact (proj1 U)|exact (proj2 U)]|].
      destruct H as [H|(ls' & k & H1 & H2 & H3)].
      * left. rewrite H. reflexivity.
      * right. destruct ls' as [|l' ls'].
        -- injection H1 as -> ->. exists [], (String c k). split; [reflexivity|]. split; [discriminate|]. rewrite H3. reflexivity.
        -- injection H1 as -> ->. exists (String c l' :: ls'), k. split; [reflexivity|]. split; [exact H2|]. rewrite H3. reflexivity.
Qed.

Lemma lines_one content ls ls' : lines_in content ls -> lines_in content ls' -> ls = ls'.
Proof. intros H H'. apply get_lines_is in H, H'. congruence. Qed.

(* ---- files ---- *)

Section Files.
Variable ord : list (option connector * list term) -> list (option connector * list term).
Variable fresh : Interning.world -> Z.
Variable room : option nat.
Variable colored : bool.

Lemma picks_exist ls : (forall l, In l ls -> ~ offending l) -> exists xs, picks ls xs.
Proof.
  induction ls as [|l ls IH]; intros N; [exists []; constructor|].
  destruct (IH (fun k I => N k (or_intror I))) as [xs P].
  destruct (sentence_found l (N l (or_introl eq_refl))) as [[C _]|(x & C & _)]; [exists xs; constructor|exists (x :: xs); constructor]; assumption.
Qed.

Lemma picks_one ls xs : picks ls xs -> forall ys, picks ls ys -> xs = ys.
Proof.
  induction 1 as [|l ls xs C P IH|l x ls xs C P IH]; intros ys Q; inversion Q as [|? ? ? D R|? y ? ? D R]; subst.
  - reflexivity.
  - exact (IH _ R).
  - destruct (carries_not _ _ D C).
  - destruct (carries_not _ _ C D).
  - rewrite (carries_one _ _ _ C D), (IH _ R). reflexivity.
Qed.

Lemma read_lines_shows ls xs : picks ls xs -> (forall l, In l ls -> ~ offending l) ->
  forall d, read_lines ord fresh room colored d ls = in_turn (show ord fresh room colored) d xs.
Proof.
  induction 1 as [|l ls xs C P IH|l x ls xs C P IH]; intros N d; cbn [read_lines in_turn]; [reflexivity| |];
    pose proof (N l (or_introl eq_refl)) as Nl; specialize (IH (fun k I => N k (or_intror I)));
    destruct (sentence_found l Nl) as [[D E]|(y & D & E)]; rewrite E; cbn [bind].
  - apply IH.
  - destruct (carries_not _ _ D C).
  - destruct (carries_not _ _ C D).
  - rewrite (carries_one _ _ _ C D). destruct (show ord fresh room colored d y) as [[d' s]| | |]; cbn [bind]; try reflexivity.
    rewrite (IH d'). reflexivity.
Qed.

Theorem file_shows content ls xs : lines_in content ls -> picks ls xs -> (forall l, In l ls -> ~ offending l) ->
  forall d, read_file ord fresh room colored d content = in_turn (show ord fresh room colored) d xs.
Proof. intros L P N d. unfold read_file. rewrite (get_lines_is _ _ L). exact (read_lines_shows _ _ P N d). Qed.

End Files.
