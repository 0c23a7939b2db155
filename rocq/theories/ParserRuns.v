(* Statements about whole parses. *)
From Coq Require Import ZArith String Ascii List Bool Lia.
From Verif Require Import Base Tables Parser ParserSpec Grammar LexFacts ParserCert ParserFacts ParserFacts2 ParserFacts3.
Import ListNotations.
Open Scope string_scope.
Open Scope list_scope.
Open Scope Z_scope.

Lemma run_more : forall n c m, run n c <> OutOfFuel -> (n <= m)%nat -> run m c = run n c.
Proof.
  induction n as [|n IH]; intros c m H L; [contradiction|].
  destruct m as [|m]; [lia|]. cbn [run] in *.
  destruct (step c) as [[c'|o]| | |]; cbn [bind] in *; try reflexivity.
  apply IH; [exact H|lia].
Qed.

Lemma line_length s : (length (line s) <= String.length s)%nat.
Proof.
  induction s as [|c s IH]; [cbn; lia|]. cbn [line String.length].
  destruct ((code c =? 0) || (code c =? 10)); cbn [length]; lia.
Qed.

Lemma terminates room left input :
  (match room with Some n => 1 <= n | None => True end)%nat ->
  run (20 * (length left + String.length input) + 20) (start room left input) <> OutOfFuel.
Proof.
  intros H. pose proof (parse_steps room left input H) as P. unfold parse in P.
  rewrite (run_more (enough (length left + length (line input)))).
  - exact P.
  - exact P.
  - unfold enough. pose proof (line_length input). lia.
Qed.

Lemma parse_cases room left input :
  (match room with Some n => 1 <= n | None => True end)%nat ->
  (room <> None /\ parse room left input = UB)
  \/ parse room left input = Ok (Rejected, [])
  \/ exists t, parse room left input = Ok (Accepted (projection t), []) /\ derivation t /\
       root t = 59 /\ text_of t = left ++ line input.
Proof.
  intros H. destruct room as [n|]; [|right; exact (parse_total left input)].
  destruct (parse_limited n left input H) as [G|[G _]]; rewrite G.
  - right. exact (parse_total left input).
  - left. split; [discriminate|reflexivity].
Qed.

Lemma accepted room input trees l :
  (match room with Some n => 1 <= n | None => True end)%nat ->
  parse room [] input = Ok (Accepted trees, l) ->
  exists t, derivation t /\ root t = 59 /\ text_of t = line input /\ trees = projection t.
Proof.
  intros H E. destruct (parse_cases room [] input H) as [[_ G]|[G|(t & G & D & R & T)]];
    rewrite G in E; try discriminate.
  inversion E. exists t. auto.
Qed.

Lemma short_input input : (String.length input <= 123)%nat ->
  parse allocated [] input = parse unlimited [] input /\
  (parse allocated [] input = Ok (Rejected, [])
   \/ exists trees, parse allocated [] input = Ok (Accepted trees, [])).
Proof.
  intros H. assert (E : parse allocated [] input = parse unlimited [] input).
  { apply parse_short; [lia|]. pose proof (line_length input). cbn [length]. lia. }
  split; [exact E|]. rewrite E.
  destruct (parse_total [] input) as [G|(t & G & _)]; eauto.
Qed.

Lemma line_stop s c t : code c = 0 \/ code c = 10 -> line (s ++ String c t)%string = line s.
Proof.
  intros H. induction s as [|x s IH]; cbn [append line].
  - destruct H as [->| ->]; reflexivity.
  - rewrite IH. reflexivity.
Qed.

Lemma first_line room left s c t : code c = 0 \/ code c = 10 ->
  parse room left (s ++ String c t)%string = parse room left s.
Proof. intros H. unfold parse, start. rewrite (line_stop s c t H). reflexivity. Qed.

Lemma line_through s c t :
  (forall x, In x (list_ascii_of_string s) -> code x <> 0 /\ code x <> 10) ->
  code c < 0 -> In c (line (s ++ String c t)%string).
Proof.
  intros H N. induction s as [|x s IH]; cbn [append line].
  - destruct (Z.eqb_spec (code c) 0); [lia|]. destruct (Z.eqb_spec (code c) 10); [lia|]. left. reflexivity.
  - destruct (H x) as [H1 H2]; [left; reflexivity|].
    destruct (Z.eqb_spec (code x) 0); [lia|]. destruct (Z.eqb_spec (code x) 10); [lia|].
    right. apply IH. intros y Hy. apply H. right. exact Hy.
Qed.

Lemma code_newline c : nat_of_ascii c = 0%nat \/ nat_of_ascii c = 10%nat -> code c = 0 \/ code c = 10.
Proof. unfold code. intros [->| ->]; [left|right]; reflexivity. Qed.

Lemma code_high c : (128 <= nat_of_ascii c)%nat -> code c < 0.
Proof.
  unfold code. intros H. assert (nat_of_ascii c < 256)%nat by apply nat_ascii_bounded.
  destruct (Z.ltb_spec (Z.of_nat (nat_of_ascii c)) 128); lia.
Qed.

Lemma code_nul c : code c = 0 \/ code c = 10 -> nat_of_ascii c = 0%nat \/ nat_of_ascii c = 10%nat.
Proof.
  unfold code. assert (nat_of_ascii c < 256)%nat by apply nat_ascii_bounded.
  destruct (Z.ltb_spec (Z.of_nat (nat_of_ascii c)) 128); lia.
Qed.

Lemma high_rejected room s c t :
  (match room with Some n => 1 <= n | None => True end)%nat ->
  (forall x, In x (list_ascii_of_string s) -> nat_of_ascii x <> 0%nat /\ nat_of_ascii x <> 10%nat) ->
  (128 <= nat_of_ascii c)%nat ->
  parse room [] (s ++ String c t)%string = Ok (Rejected, [])
  \/ room <> None /\ parse room [] (s ++ String c t)%string = UB.
Proof.
  intros H L N. destruct (parse_cases room [] (s ++ String c t) H) as [G|[G|(u & G & D & R & T)]]; auto.
  exfalso. apply derivation_positive in D. rewrite T in D. cbn [app] in D.
  assert (I : In c (line (s ++ String c t)%string)).
  { apply line_through; [|apply code_high; exact N].
    intros x Hx. destruct (L x Hx) as [L1 L2].
    split; intros Q; destruct (code_nul x) as [Q'|Q']; auto. }
  rewrite Forall_forall in D. specialize (D _ I). pose proof (code_high c N). lia.
Qed.

Lemma session_each room : (match room with Some n => 1 <= n | None => True end)%nat ->
  forall inputs outs l, session room [] inputs = Ok (outs, l) <->
    l = [] /\ Forall2 (fun s o => parse room [] s = Ok (o, [])) inputs outs.
Proof.
  intros H. induction inputs as [|s inputs IH]; intros outs l; cbn [session].
  - split.
    + intros E. inversion E. auto.
    + intros [-> F]. inversion F. reflexivity.
  - assert (LEFT : forall o x, parse room [] s = Ok (o, x) -> x = []).
    { intros o x E. destruct (parse_cases room [] s H) as [[_ G]|[G|(t & G & _)]]; rewrite G in E; inversion E; reflexivity. }
    destruct (parse room [] s) as [[o x]| | |] eqn:E; cbn [bind fst snd].
    + specialize (LEFT o x eq_refl). subst x.
      destruct (session room [] inputs) as [[os l']| | |] eqn:E2; cbn [bind fst snd].
      * destruct (IH os l') as [IH1 _]. specialize (IH1 eq_refl). destruct IH1 as [-> F]. split.
        -- intros Q. inversion Q. split; [reflexivity|]. constructor; assumption.
        -- intros [-> F']. inversion F' as [|? o' ? os' P F'']; subst.
           rewrite E in P. inversion P; subst o'. f_equal. f_equal. f_equal.
           destruct (IH os' []) as [_ IH2]. specialize (IH2 (conj eq_refl F'')). inversion IH2. reflexivity.
      * split; [discriminate|]. intros [-> F']. inversion F' as [|? o' ? os' P F'']; subst.
        destruct (IH os' []) as [_ IH2]. specialize (IH2 (conj eq_refl F'')). discriminate.
      * split; [discriminate|]. intros [-> F']. inversion F' as [|? o' ? os' P F'']; subst.
        destruct (IH os' []) as [_ IH2]. specialize (IH2 (conj eq_refl F'')). discriminate.
      * split; [discriminate|]. intros [-> F']. inversion F' as [|? o' ? os' P F'']; subst.
        destruct (IH os' []) as [_ IH2]. specialize (IH2 (conj eq_refl F'')). discriminate.
    + split; [discriminate|]. intros [_ F]. inversion F. congruence.
    + split; [discriminate|]. intros [_ F]. inversion F. congruence.
    + split; [discriminate|]. intros [_ F]. inversion F. congruence.
Qed.
