(* Examples of reading from the console. *)
From Coq Require Import ZArith String Ascii List Bool Arith Lia.
From Verif Require Import Base Tables Enums Parser ParserSpec ParserCases Buffer BufferSpec Term Actions ActionsCases.
From Verif Require Import Console ConsoleSpec ConsoleSpec2.
From Verif Require Import ConsoleSpec3 ConsoleSpec4 BufferCases Forms.
Import ListNotations.
Open Scope string_scope.
Open Scope list_scope.
Open Scope Z_scope.

(* The tree of <a-->b>. *)
Definition told : list ast :=
  [Node "task" [Node "judgement" [Node "statement" [
    Node "atom_term" [Leaf "string_raw" "a"]; Node "inheritance" []; Node "atom_term" [Leaf "string_raw" "b"]]]]].

(* The tree of a word with a full stop *)
Definition word (w : string) : list ast := [Node "task" [Node "judgement" [Node "atom_term" [Leaf "string_raw" w]]]].

Definition trees (r : res (list ending * buffer)) : option (list (option (list ast)) * list Z) :=
  match r with
  | Ok (es, b) => Some (map (fun e => match e with Built t => Some t | Failed _ _ => None end) es, queue b)
  | _ => None
  end.

Lemma trees_ok r ts q : trees r = Some (ts, q) -> exists es b, r = Ok (es, b) /\ queue b = q /\
  map (fun e => match e with Built t => Some t | Failed _ _ => None end) es = ts.
Proof.
  unfold trees. destruct r as [[es b]| | |]; try discriminate. intros H. injection H as <- <-. eauto.
Qed.

Definition short (s : string) : bool :=
  forallb (fun v => (0 <? v) && (v <? 128) && negb (v =? 10)) (bytes s).

Lemma short_plain s : short s = true -> plain s.
Proof.
  unfold short, plain. rewrite forallb_forall, Forall_forall. intros F v I. specialize (F v I).
  apply andb_true_iff in F as [F F3]. apply andb_true_iff in F as [F1 F2].
  apply Z.ltb_lt in F1, F2. apply negb_true_iff in F3. apply Z.eqb_neq in F3. lia.
Qed.

(* The second half of a line that is refused is taken for a sentence. *)
Lemma remark_refused : plain "no, <a-->b>." /\ parse allocated [] "no, <a-->b>." = Ok (Rejected, []).
Proof. split; [apply short_plain; vm_compute; reflexivity|vm_compute; reflexivity]. Qed.

Lemma remark_told : exists p t b, console allocated no_buffer (typed "no, <a-->b>." ++ typed "c.") =
    Ok (Failed p t, b) /\ exists b', console allocated b (queue b) = Ok (Built told, b') /\ queue b' = typed "c.".
Proof.
  do 3 eexists. split; [vm_compute; reflexivity|]. eexists. split; vm_compute; reflexivity.
Qed.

Lemma word_read : plain "a." /\ parse allocated [] "a." = Ok (Accepted (word "a"), []).
Proof. split; [apply short_plain; vm_compute; reflexivity|vm_compute; reflexivity]. Qed.

Lemma told_read : plain "<a-->b>." /\ parse allocated [] "<a-->b>." = Ok (Accepted told, []).
Proof. split; [apply short_plain; vm_compute; reflexivity|vm_compute; reflexivity]. Qed.

(* Without a newline *)
Lemma unended_refused : exists p t b, console allocated no_buffer (bytes "<a-->b>.") = Ok (Failed p t, b).
Proof. do 3 eexists. vm_compute. reflexivity. Qed.

Lemma unended_none : ~ In 10 (bytes "<a-->b>.").
Proof. vm_compute. intuition discriminate. Qed.

(* NUL and bytes outside of ASCII *)
Lemma nul_cuts : exists b, console allocated no_buffer (97 :: 0 :: typed "b.") = Ok (Built (word "a"), b).
Proof. eexists. vm_compute. reflexivity. Qed.

Lemma nul_overflow :
  console allocated no_buffer (0 :: repeat 97 200 ++ typed ".") = UB /\
  exists t b, console allocated no_buffer (repeat 97 200 ++ typed ".") = Ok (Built t, b).
Proof. split; [vm_compute; reflexivity|]. do 2 eexists. vm_compute. reflexivity. Qed.

Lemma accent_undefined : console allocated no_buffer (97 :: 195 :: 169 :: typed ".") = UB /\
  exists p b, mparse allocated no_buffer (String "a" (String (ascii_of_nat 195) (String (ascii_of_nat 169) "."))) =
    Ok (Failed p UB, b).
Proof. split; [vm_compute; reflexivity|]. do 2 eexists. vm_compute. reflexivity. Qed.

(* Variables of two lines *)
Definition subject_var (v : value) : option (vkind * Z) :=
  match content_of v with Some (Stmt _ (Var k i) _) => Some (k, i) | _ => None end.

Definition two_lines : option (option (vkind * Z) * option (vkind * Z)) :=
  match parse_input id_ord bump allocated blank_state no_buffer (typed "<$x --> a>." ++ typed "<$y --> a>.") with
  | Ok (st, b, Some v, false) =>
      match parse_input id_ord bump allocated st b (queue b) with
      | Ok (_, _, Some v', false) => Some (subject_var v, subject_var v')
      | _ => None
      end
  | _ => None
  end.

Definition two_strings : option (option (vkind * Z) * option (vkind * Z)) :=
  match parse_task id_ord bump allocated blank_state [] "<$x --> a>." with
  | Ok (st, l, Some v, false) =>
      match parse_task id_ord bump allocated st l "<$y --> a>." with
      | Ok (_, _, Some v', false) => Some (subject_var v, subject_var v')
      | _ => None
      end
  | _ => None
  end.

Lemma two_lines_ok i j : two_lines = Some (i, j) -> exists st b v st' b' v',
  parse_input id_ord bump allocated blank_state no_buffer (typed "<$x --> a>." ++ typed "<$y --> a>.") =
    Ok (st, b, Some v, false) /\ subject_var v = i /\
  parse_input id_ord bump allocated st b (queue b) = Ok (st', b', Some v', false) /\ subject_var v' = j.
Proof.
  unfold two_lines.
  generalize (parse_input id_ord bump allocated blank_state no_buffer (typed "<$x --> a>." ++ typed "<$y --> a>.")).
  intros r E. destruct r as [[[[st b] [v|]] [|]]| | |]; try discriminate E.
  destruct (parse_input id_ord bump allocated st b (queue b)) as [[[[st' b'] [v'|]] [|]]| | |] eqn:E2; try discriminate E.
  injection E as E3 E4. exists st, b, v, st', b', v'. auto.
Qed.

Lemma two_strings_ok i j : two_strings = Some (i, j) -> exists st l v st' l' v',
  parse_task id_ord bump allocated blank_state [] "<$x --> a>." = Ok (st, l, Some v, false) /\ subject_var v = i /\
  parse_task id_ord bump allocated st l "<$y --> a>." = Ok (st', l', Some v', false) /\ subject_var v' = j.
Proof.
  unfold two_strings. generalize (parse_task id_ord bump allocated blank_state [] "<$x --> a>.").
  intros r E. destruct r as [[[[st b] [v|]] [|]]| | |]; try discriminate E.
  destruct (parse_task id_ord bump allocated st b "<$y --> a>.") as [[[[st' b'] [v'|]] [|]]| | |] eqn:E2; try discriminate E.
  injection E as E3 E4. exists st, b, v, st', b', v'. auto.
Qed.

Lemma two_lines_are : two_lines = Some (Some (Independent, 0), Some (Independent, 1)).
Proof. vm_compute. reflexivity. Qed.
Lemma two_strings_are : two_strings = Some (Some (Independent, 0), Some (Independent, 0)).
Proof. vm_compute. reflexivity. Qed.

Lemma first_plain : plain "<$x --> a>.".
Proof. apply short_plain. vm_compute. reflexivity. Qed.

Definition runs (s : string) : bool :=
  match parse_task id_ord bump allocated blank_state [] s with Ok (_, [], Some _, false) => true | _ => false end.
Lemma runs_ok s : runs s = true -> exists st v, parse_task id_ord bump allocated blank_state [] s = Ok (st, [], Some v, false).
Proof.
  unfold runs. destruct (parse_task id_ord bump allocated blank_state [] s) as [[[[st [|c l]] [v|]] [|]]| | |]; try discriminate.
  eauto.
Qed.
Lemma first_runs : runs "<$x --> a>." = true.
Proof. vm_compute. reflexivity. Qed.

Lemma letters_ascii : Forall (fun v => 0 < v < 128) (repeat 97 200).
Proof. apply Forall_forall. intros v I. apply repeat_spec in I. lia. Qed.

(* A session with a NUL, a line that is refused in the middle, and no newline
   at the end *)
Definition noisy : list Z := (97 :: 0 :: typed "b.") ++ typed "no, <a-->b>." ++ [120].

Lemma octets_decide stream : forallb (fun v => (0 <=? v) && (v <? 256)) stream = true -> octets stream.
Proof.
  intros H. apply Forall_forall. intros v I. rewrite forallb_forall in H. specialize (H v I).
  apply andb_true_iff in H as [H1 H2]. apply Z.leb_le in H1. apply Z.ltb_lt in H2. lia.
Qed.

Lemma noisy_octets : octets noisy.
Proof. apply octets_decide. vm_compute. reflexivity. Qed.

Lemma noisy_session : exists p q t t' b, consoles allocated 4 no_buffer noisy =
  Ok ([Built (word "a"); Failed p t; Built told; Failed q t'], b) /\ queue b = [].
Proof. do 5 eexists. split; [vm_compute; reflexivity|reflexivity]. Qed.

Lemma noisy_seen : exists t, parse allocated [] (seen noisy) = Ok (Accepted t, []) /\ t <> word "a" /\
  map outline t = map outline (word "a").
Proof. eexists. split; [vm_compute; reflexivity|]. split; [discriminate|reflexivity]. Qed.

Lemma noisy_first : exists b, console allocated no_buffer noisy = Ok (Built (word "a"), b).
Proof. eexists. vm_compute. reflexivity. Qed.

Lemma short_session : octets (typed "a.") /\
  exists e1 e2 e3 b, consoles allocated 3 no_buffer (typed "a.") = Ok ([e1; e2; e3], b).
Proof. split; [apply octets_decide; vm_compute; reflexivity|]. do 4 eexists. vm_compute. reflexivity. Qed.

Lemma remark_answered : idle no_buffer /\ Forall (fun s => plain s /\ short_line allocated s) ["no, <a-->b>."; "a."]%string /\
  (exists p token, answers allocated "no, <a-->b>." [Failed p token; Built told]) /\ answers allocated "a." [Built (word "a")].
Proof.
  split; [exact no_buffer_idle|]. split; [|split].
  - assert (S1 : forall s, (String.length s <= 123)%nat -> short_line allocated s) by (intros s L; right; auto).
    constructor; [|constructor; [|constructor]]; (split; [|apply S1; apply Nat.leb_le; vm_compute; reflexivity]);
      [exact (proj1 remark_refused)|exact (proj1 word_read)].
  - exists (1%nat, 3%nat), (Ok []). apply (A_again allocated _ "no, " "<a-->b>." _ _ _ (proj2 remark_refused) eq_refl); [discriminate|].
    apply A_read. exact (proj2 told_read).
  - apply A_read. exact (proj2 word_read).
Qed.

Definition both_values (r : res (state * list ascii * list (option value * bool))) : bool :=
  match r with Ok (_, _, [(Some _, false); (Some _, false)]) => true | _ => false end.

Lemma both_values_are r : both_values r = true -> exists st1 left v1 v2, r = Ok (st1, left, [(Some v1, false); (Some v2, false)]).
Proof.
  destruct r as [[[st l] [|[[v1|] []] [|[[v2|] []] []]]]| | |]; try discriminate. intros _. exists st, l, v1, v2. reflexivity.
Qed.

Lemma unnamed_case : exists st, ivars st <> [] /\ alike st blank_state /\ idle no_buffer /\
  Forall (fun s => plain s /\ String.length s <= 127)%nat ["<a-->b>."; "a."]%string /\
  Forall2 (fun s t => parse allocated [] s = Ok (Accepted t, []) /\ Forall unnamed t) ["<a-->b>."; "a."]%string [told; word "a"] /\
  exists st1 left v1 v2, readings id_ord bump allocated blank_state [] ["<a-->b>."; "a."]%string = Ok (st1, left, [(Some v1, false); (Some v2, false)]).
Proof.
  exists (with_vars blank_state [("$x"%string, 0)] [] []). split; [discriminate|]. split; [repeat split|]. split; [exact no_buffer_idle|].
  assert (N : forall e, existsb (String.eqb e) ["independent_var"; "dependent_var"; "query_var"]%string = false ->
    ~ In e ["independent_var"; "dependent_var"; "query_var"]%string).
  { intros e H I. assert (existsb (String.eqb e) ["independent_var"; "dependent_var"; "query_var"]%string = true); [|congruence].
    apply existsb_exists. exists e. split; [exact I|apply String.eqb_refl]. }
  split; [|split].
  - constructor; [|constructor; [|constructor]]; (split; [|apply Nat.leb_le; vm_compute; reflexivity]);
      [exact (proj1 told_read)|exact (proj1 word_read)].
  - constructor; [|constructor; [|constructor]]; (split; [exact (proj2 told_read) || exact (proj2 word_read)|]);
      repeat (constructor; try (apply N; reflexivity)).
  - apply both_values_are. vm_compute. reflexivity.
Qed.
