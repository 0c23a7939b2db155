(* What becomes of the sentences in a file. *)
From Coq Require Import ZArith String Ascii List Bool Lia.
From Verif Require Import Base Enums Term Parser ParserFacts Grammar ParserRuns Actions ActionsFacts5 Sessions Reader ReaderSpec ReaderFacts GenerateSpec.
From Verif Require Interning Printer.
Import ListNotations.
Open Scope string_scope.
Open Scope list_scope.
Local Open Scope Z_scope.

(* ---- sentences end with a mark ---- *)

Definition marked : list Z := [59; 120; 233; 229; 116; 115; 114; 113; 55; 54; 53; 52].
Definition ismarked (s : Z) : bool := existsb (Z.eqb s) marked.
Definition isterminal (s : Z) : bool := (0 <=? s) && (s <? 59).
Definition keeps_mark (r : Z * list Z * string) : bool :=
  let '(lhs, rhs, _) := r in negb (ismarked lhs) || (negb (isterminal lhs) && existsb ismarked rhs).

Lemma rules_keep : forallb keeps_mark rules = true.
Proof. vm_compute. reflexivity. Qed.

Definition is_mark (c : ascii) : Prop := c = "."%char \/ c = "?"%char \/ c = "!"%char \/ c = "@"%char.

Lemma one_character c txt : matches (text_re (String c "")) txt -> exists d, txt = [d] /\ code d = code c.
Proof.
  cbn [text_re]. unfold chr. intros M. inversion M as [|? d H| | | | | |]; subst. exists d. split; [reflexivity|].
  cbn in H. rewrite orb_false_r, andb_true_iff, !Z.leb_le in H. lia.
Qed.

Lemma code_same c d : code c = code d -> c = d.
Proof.
  unfold code. pose proof (nat_ascii_bounded c). pose proof (nat_ascii_bounded d). intros E.
  rewrite <- (ascii_nat_embedding c), <- (ascii_nat_embedding d). f_equal.
  destruct (Z.ltb_spec (Z.of_nat (nat_of_ascii c)) 128), (Z.ltb_spec (Z.of_nat (nat_of_ascii d)) 128); lia.
Qed.

Lemma marks_in t : derivation t -> ismarked (root t) = true -> exists c, In c (text_of t) /\ is_mark c.
Proof.
  intros D. induction D as [sym txt B M|r lhs rhs name kids N E F IH] using derivation_ind'; intros K.
  - cbn [root text_of] in *. unfold ismarked in K. apply existsb_exists in K. destruct K as (k & K & Q). apply Z.eqb_eq in Q. subst k.
    assert (W : exists c, is_mark c /\ lexeme sym = text_re (String c "")).
    { cbn [marked In] in K. decompose [or] K; try lia; subst sym.
      - exists "."%char. split; [left; reflexivity|reflexivity].
      - exists "?"%char. split; [right; left; reflexivity|reflexivity].
      - exists "!"%char. split; [right; right; left; reflexivity|reflexivity].
      - exists "@"%char. split; [right; right; right; reflexivity|reflexivity]. }
    destruct W as (c & Mc & L). rewrite L in M. destruct (one_character c txt M) as (d & -> & C). apply code_same in C. subst d.
    exists c. split; [left; reflexivity|exact Mc].
  - cbn [root] in K. rewrite N in K.
    pose proof (proj1 (forallb_forall _ _) rules_keep _ (nth_error_In _ _ N)) as Q. cbn [keeps_mark] in Q. rewrite K in Q.
    cbn [negb orb] in Q. apply andb_true_iff in Q. destruct Q as [_ Q]. apply existsb_exists in Q. destruct Q as (s & Hs & Ms).
    rewrite <- E in Hs. apply in_map_iff in Hs. destruct Hs as (k & <- & Hk).
    rewrite Forall_forall in IH. destruct (IH k Hk Ms) as (c & Hc & Mc). exists c. split; [|exact Mc].
    cbn [text_of]. apply in_concat. exists (text_of k). split; [apply in_map; exact Hk|exact Hc].
Qed.

Lemma line_part x c : In c (line x) -> In c (list_ascii_of_string x).
Proof.
  induction x as [|d x IH]; [intros []|]. cbn [line list_ascii_of_string]. destruct (_ || _); [intros []|].
  intros [->|I]; [left; reflexivity|right; exact (IH I)].
Qed.

Lemma accepted_marked room x trees l : (match room with Some n => 1 <= n | None => True end)%nat ->
  parse room [] x = Ok (Accepted trees, l) -> exists c, In c (list_ascii_of_string x) /\ is_mark c.
Proof.
  intros R P. destruct (accepted room x trees l R P) as (t & D & Rt & T & _).
  destruct (marks_in t D) as (c & I & M); [rewrite Rt; reflexivity|]. exists c. split; [|exact M]. apply line_part. rewrite <- T. exact I.
Qed.

Theorem numbers_rejected room x trees l : (match room with Some n => 1 <= n | None => True end)%nat ->
  parse room [] x = Ok (Accepted trees, l) -> ~ all_figures x.
Proof.
  intros R P F. destruct (accepted_marked room x trees l R P) as (c & I & M). unfold all_figures in F. rewrite Forall_forall in F.
  specialize (F c I). unfold figure in F. destruct M as [->|[->|[->| ->]]]; cbn in F; lia.
Qed.

Lemma skipped_comment room l x trees left : (match room with Some n => 1 <= n | None => True end)%nat ->
  parse room [] x = Ok (Accepted trees, left) -> trimmed l x -> carries_nothing l -> comment x.
Proof.
  intros R P T (y & T' & H). rewrite <- (trimmed_one l x y T T') in H. destruct H as [H|H]; [|exact H].
  destruct (numbers_rejected room x trees left R P H).
Qed.

Lemma every_file content : exists ls, lines_in content ls /\
  (forall ls', lines_in content ls' -> ls' = ls) /\
  ((forall l, In l ls -> ~ offending l) -> exists xs, picks ls xs /\ forall ys, picks ls ys -> ys = xs).
Proof.
  exists (get_lines content). split; [apply lines_exist|]. split; [intros ls' H; symmetry; exact (get_lines_is _ _ H)|].
  intros N. destruct (picks_exist _ N) as [xs P]. exists xs. split; [exact P|]. intros ys Q. symmetry. exact (picks_one _ _ P _ Q).
Qed.

(* ---- rejected sentences ---- *)

Section Rejected.
Variable ord : list (option connector * list term) -> list (option connector * list term).
Variable fresh : Interning.world -> Z.
Variable room : option nat.
Variable colored : bool.

Lemma read_pending d x d' : pending (reader d) = [] -> read_text ord fresh room d x = Ok d' -> pending (reader d') = [].
Proof.
  intros N. unfold read_text. cbv zeta. unfold parse_task. destruct (parse room (leftover d) x) as [[o left]| | |]; try discriminate.
  cbn [bind]. destruct (finish ord fresh (reader d) o) as [[[st v] th]| | |] eqn:F; try discriminate. cbn [bind].
  destruct th; [discriminate|]. pose proof (finish_pending _ _ _ _ _ _ N F) as P. destruct v as [v|].
  - destruct (sift _ _ _ _) as [[k w]| | |]; try discriminate. intros E. injection E as <-. exact P.
  - intros E. injection E as <-. exact P.
Qed.

Lemma release_pending d i d' : pending (reader d) = [] -> release d i = Ok d' -> pending (reader d') = [].
Proof.
  intros N. unfold release. destruct (nth_error _ _); [|discriminate]. destruct (sift _ _ _ _) as [[k' w]| | |]; try discriminate.
  intros E. injection E as <-. exact N.
Qed.

Lemma show_pending d x d' s : pending (reader d) = [] -> show ord fresh room colored d x = Ok (d', s) -> pending (reader d') = [].
Proof.
  intros N. unfold show. destruct (read_text ord fresh room d x) as [d1| | |] eqn:R; try discriminate. cbn [bind].
  destruct (Nat.eqb _ _); [discriminate|]. destruct (items d1) as [|[[] n] its]; try discriminate.
  destruct (Printer.interpret_task _ _ _ _) as [str| | |]; try discriminate. cbn [bind].
  destruct (release d1 0) as [d2| | |] eqn:L; try discriminate. cbn [bind]. intros E. injection E as <- _.
  exact (release_pending _ _ _ (read_pending _ _ _ N R) L).
Qed.

Lemma in_turn_pending xs : forall d d' outs, pending (reader d) = [] ->
  in_turn (show ord fresh room colored) d xs = Ok (d', outs) -> pending (reader d') = [].
Proof.
  induction xs as [|x xs IH]; intros d d' outs N E; cbn [in_turn] in E; [injection E as <- _; exact N|].
  destruct (show ord fresh room colored d x) as [[d1 s]| | |] eqn:W; try discriminate. cbn [bind] in E.
  destruct (in_turn _ d1 xs) as [[d2 r]| | |] eqn:V; try discriminate. cbn [bind] in E. injection E as <- _.
  exact (IH _ _ _ (show_pending _ _ _ _ N W) V).
Qed.

Lemma show_rejected d x left' : pending (reader d) = [] -> parse room (leftover d) x = Ok (Rejected, left') ->
  show ord fresh room colored d x = UB.
Proof.
  intros N P. unfold show, read_text. cbv zeta. rewrite (rejected_nothing ord fresh room _ _ _ _ N P). cbn [bind items].
  rewrite Nat.eqb_refl. reflexivity.
Qed.

Lemma in_turn_app xs ys : forall d d1 outs, in_turn (show ord fresh room colored) d xs = Ok (d1, outs) ->
  in_turn (show ord fresh room colored) d (xs ++ ys) =
    bind (in_turn (show ord fresh room colored) d1 ys) (fun '(d2, r) => Ok (d2, outs ++ r)).
Proof.
  induction xs as [|x xs IH]; intros d d1 outs E; cbn [in_turn app] in *.
  - injection E as <- <-. destruct (in_turn _ d ys) as [[? ?]| | |]; reflexivity.
  - destruct (show ord fresh room colored d x) as [[d' s]| | |]; try discriminate. cbn [bind] in *.
    destruct (in_turn _ d' xs) as [[d2 r]| | |] eqn:V; try discriminate. cbn [bind] in E. injection E as <- <-.
    rewrite (IH _ _ _ V). destruct (in_turn _ d2 ys) as [[? ?]| | |]; reflexivity.
Qed.

Theorem rejected_crashes content ls xs x ys d d1 outs left' :
  lines_in content ls -> (forall l, In l ls -> ~ offending l) -> picks ls (xs ++ x :: ys) ->
  pending (reader d) = [] -> in_turn (show ord fresh room colored) d xs = Ok (d1, outs) ->
  parse room (leftover d1) x = Ok (Rejected, left') ->
  read_file ord fresh room colored d content = UB.
Proof.
  intros L N P Pe T R. rewrite (file_shows ord fresh room colored content ls _ L P N d), (in_turn_app _ _ _ _ _ T). cbn [in_turn].
  rewrite (show_rejected d1 x left' (in_turn_pending _ _ _ _ Pe T) R). reflexivity.
Qed.

End Rejected.
