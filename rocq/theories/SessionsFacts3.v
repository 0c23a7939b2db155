(* Facts about sessions: what a kept task prints. *)
From Coq Require Import ZArith Lia String Ascii List Bool.
From Verif Require Import Base Enums Term TermFacts Maps Compound CompoundFacts Actions ActionsFacts ActionsFacts3 Printer PrinterSpec PrinterFacts Forms Sessions SessionsSpec SessionsFacts SessionsFacts2.
From Verif Require Import Interning InterningSpec InterningFacts InterningFacts2 InterningFacts3.
From Verif Require Evidence Parser.
Import ListNotations.
Open Scope string_scope.
Open Scope list_scope.
Local Open Scope Z_scope.

(* ---- the clock ---- *)

Section Clock.
Variable ord : list (option connector * list term) -> list (option connector * list term).
Variable fresh : world -> Z.

Definition calm (f : method) : Prop := forall st a st' v, f st a = Ok (st', v) ->
  Evidence.time (store st') = Evidence.time (store st).

Lemma marks_calm l : forall m t s m' t' s', loop_marks m l t s = Ok (m', t', s') -> Evidence.time m' = Evidence.time m.
Proof.
  induction l as [|v l IH]; intros m t s m' t' s' H; cbn [loop_marks] in H.
  - apply Ok_inj in H. injection H as <- _ _. reflexivity.
  - destruct v; try discriminate H.
    + apply IH in H. exact H.
    + apply IH in H. exact H.
Qed.

Lemma stamp_calm m s : Evidence.time (fst (finish_stamp m s)) = Evidence.time m.
Proof. destruct s; reflexivity. Qed.

Ltac step_bind H :=
  repeat match type of H with
         | bind ?x _ = _ => let e := fresh "e" in destruct x eqn:e; cbn [bind] in H; [|discriminate H|discriminate H|discriminate H]
         end.

Ltac quiet := intros st a st' v H; destruct a as [l|]; [|discriminate H]; cbn [all_args bind] in H;
  step_bind H; destruct (ok_pair _ _ _ _ H) as [<- <-]; reflexivity.

Lemma calm_belief p c : calm (make_belief p c).
Proof.
  intros st a st' v H. unfold make_belief in H. destruct a as [l|]; [|discriminate H]. cbn [all_args bind] in H.
  step_bind H. destruct a0 as [[m tr] s]. pose proof (stamp_calm m s) as C. destruct (finish_stamp m s). destruct (ok_pair _ _ _ _ H) as [<- <-].
  cbn [with_store store]. cbn [fst] in C. rewrite C. eapply marks_calm. eassumption.
Qed.

Lemma calm_query p : calm (make_query p).
Proof.
  intros st a st' v H. unfold make_query in H. destruct a as [l|]; [|discriminate H]. cbn [all_args bind] in H.
  step_bind H. destruct a0 as [[m tr] s]. pose proof (stamp_calm m s) as C. destruct (finish_stamp m s). destruct (ok_pair _ _ _ _ H) as [<- <-].
  cbn [with_store store]. cbn [fst] in C. rewrite C. eapply marks_calm. eassumption.
Qed.

Lemma calm_task : calm make_task.
Proof. unfold make_task. quiet. Qed.

Lemma calm_statement : calm (make_statement ord).
Proof.
  intros st a st' v H. unfold make_statement in H. destruct a as [l|]; [|discriminate H]. cbn [all_args bind] in H.
  destruct (bind (arg l 0) as_term) as [s| | |] eqn:Es; cbn [bind] in H; try discriminate H.
  destruct (bind (arg l 1) as_copula) as [c| | |] eqn:Ec; cbn [bind] in H; try discriminate H.
  destruct (bind (arg l 2) as_term) as [p| | |] eqn:Ep; cbn [bind] in H; try discriminate H.
  destruct c; step_bind H; destruct (ok_pair _ _ _ _ H) as [<- <-]; reflexivity.
Qed.

Lemma calm_operation1' st l st' v : operation1 ord st l = Ok (st', v) -> Evidence.time (store st') = Evidence.time (store st).
Proof. intros H. unfold operation1 in H. step_bind H. destruct (ok_pair _ _ _ _ H) as [<- <-]. reflexivity. Qed.

Lemma calm_operation1 : calm (make_operation1 ord).
Proof. intros st a st' v H. unfold make_operation1 in H. destruct a as [l|]; [|discriminate H]. exact (calm_operation1' _ _ _ _ H). Qed.

Lemma calm_atom : calm (make_atom fresh).
Proof. unfold make_atom. quiet. Qed.

Lemma calm_operation : calm (make_operation fresh).
Proof. unfold make_operation. quiet. Qed.

Lemma calm_operation2 : calm (make_operation2 ord fresh).
Proof.
  intros st a st' v H. unfold make_operation2 in H. destruct a as [l|]; [|discriminate H]. cbn [all_args bind] in H.
  destruct (arg l 0) as [u| | |] eqn:Eu; cbn [bind] in H; try discriminate H.
  destruct (make_operation fresh st (Some [u])) as [[st1 op]| | |] eqn:M; cbn [bind] in H; try discriminate H.
  rewrite (calm_operation1' _ _ _ _ H). exact (calm_operation _ _ _ _ M).
Qed.

Lemma calm_constant u : calm (constant u).
Proof. intros st a st' v H. unfold constant in H. destruct (ok_pair _ _ _ _ H) as [<- <-]. reflexivity. Qed.

Lemma calm_pass : calm pass.
Proof. unfold pass. quiet. Qed.
Lemma calm_pass_term : calm pass_term.
Proof. unfold pass_term. quiet. Qed.

Lemma calm_prefix' st l st' v : prefix ord st l = Ok (st', v) -> Evidence.time (store st') = Evidence.time (store st).
Proof. intros H. unfold prefix in H. step_bind H. destruct (ok_pair _ _ _ _ H) as [<- <-]. reflexivity. Qed.

Lemma calm_prefix : calm (make_prefix ord).
Proof. intros st a st' v H. unfold make_prefix in H. destruct a as [l|]; [|discriminate H]. exact (calm_prefix' _ _ _ _ H). Qed.

Lemma calm_infix c : calm (make_infix ord c).
Proof.
  intros st a st' v H. unfold make_infix in H. destruct a as [l|]; [|discriminate H]. cbn [all_args bind] in H.
  exact (calm_prefix' _ _ _ _ H).
Qed.

Lemma calm_negation : calm (make_negation ord).
Proof. unfold make_negation. quiet. Qed.
Lemma calm_single i j : calm (make_single ord i j).
Proof. unfold make_single. quiet. Qed.

Lemma calm_variable k : calm (make_variable k).
Proof.
  intros st a st' v H. unfold make_variable in H. destruct a as [l|]; [|discriminate H]. cbn [all_args bind] in H.
  step_bind H.
  destruct k; match type of H with context [number_of ?x ?y] => destruct (number_of x y) as [m i] end;
    destruct (ok_pair _ _ _ _ H) as [<- <-]; reflexivity.
Qed.

Ltac simple H := step_bind H; destruct (ok_pair _ _ _ _ H) as [<- <-]; reflexivity.

Lemma calm_interval : calm make_interval.
Proof. intros st a st' v H. unfold make_interval in H. simple H. Qed.
Lemma calm_time : calm make_time.
Proof. intros st a st' v H. unfold make_time in H. simple H. Qed.
Lemma calm_truth : calm make_truth.
Proof. intros st a st' v H. unfold make_truth in H. simple H. Qed.
Lemma calm_budget : calm make_budget.
Proof. intros st a st' v H. unfold make_budget in H. simple H. Qed.
Lemma calm_string : calm make_string.
Proof. intros st a st' v H. unfold make_string in H. simple H. Qed.
Lemma calm_number : calm make_number.
Proof. intros st a st' v H. unfold make_number in H. simple H. Qed.

Lemma all_calm : Forall (fun nf => calm (snd nf)) (methods ord fresh).
Proof.
  unfold methods.
  repeat (apply Forall_cons; [
    cbn [snd];
    first
      [ apply calm_task | apply calm_belief | apply calm_query | apply calm_statement | apply calm_operation1
      | apply calm_operation2 | apply calm_constant | apply calm_pass_term | apply calm_atom
      | apply calm_operation | apply calm_interval | apply calm_prefix | apply calm_negation
      | apply calm_pass | apply calm_variable
      | apply calm_infix | apply calm_single | apply calm_time | apply calm_truth
      | apply calm_budget | apply calm_string | apply calm_number ]|]).
  constructor.
Qed.

Lemma call_calm e : calm (Actions.call ord fresh e).
Proof.
  intros st a st' v C. unfold Actions.call in C. destruct (lookup String.eqb e (methods ord fresh)) as [f|] eqn:L.
  - apply ActionsFacts.lookup_in in L. pose proof all_calm as Q. rewrite Forall_forall in Q. exact (Q _ L _ _ _ _ C).
  - destruct (ok_pair _ _ _ _ C) as [<- <-]. reflexivity.
Qed.

Definition tree_calm (n : Parser.ast) : Prop := forall st st' v, transform ord fresh st n = Ok (st', v) ->
  Evidence.time (store st') = Evidence.time (store st).

Lemma list_calm l : Forall tree_calm l -> forall st st' vs, transform_all ord fresh st l = Ok (st', vs) ->
  Evidence.time (store st') = Evidence.time (store st).
Proof.
  induction 1 as [|n l N _ IH]; intros st st' vs H; cbn [transform_all] in H.
  - destruct (ok_pair _ _ _ _ H) as [<- <-]. reflexivity.
  - destruct (transform ord fresh st n) as [[st1 v]| | |] eqn:E; cbn [bind] in H; try discriminate H.
    destruct (transform_all ord fresh st1 l) as [[st2 us]| | |] eqn:T; cbn [bind] in H; try discriminate H.
    destruct (ok_pair _ _ _ _ H) as [<- <-]. rewrite (IH _ _ _ T). exact (N _ _ _ E).
Qed.

Lemma any_calm : forall n, tree_calm n.
Proof.
  induction n as [e tok|e kids IH] using ast_ind'; intros st st' v H.
  - cbn [transform] in H. exact (call_calm _ _ _ _ _ H).
  - rewrite transform_node in H.
    destruct (transform_all ord fresh st kids) as [[st1 vs]| | |] eqn:T; cbn [bind] in H; try discriminate H.
    rewrite (call_calm _ _ _ _ _ H). exact (list_calm _ IH _ _ _ T).
Qed.

Lemma parse_calm room st rest input st' rest' v b : parse_task ord fresh room st rest input = Ok (st', rest', v, b) ->
  Evidence.time (store st') = Evidence.time (store st).
Proof.
  unfold parse_task. destruct (Parser.parse room rest input) as [[o r]| | |]; cbn [bind]; intros H; try discriminate H.
  unfold finish in H.
  set (tree := match o with Parser.Accepted l => l | Parser.Rejected => pending (with_vars st [] [] []) end) in H.
  destruct tree as [|n l].
  - cbn [bind] in H. apply Ok_inj in H. injection H as <- _ _. reflexivity.
  - destruct (transform_all ord fresh (with_vars st [] [] []) (n :: l)) as [[st1 [|u us]]| | |] eqn:T;
      cbn [bind] in H; try discriminate H.
    + apply Ok_inj in H. injection H as <- _ _.
      assert (F : Forall tree_calm (n :: l)) by (apply Forall_forall; intros x _; apply any_calm).
      exact (list_calm _ F _ _ _ T).
    + apply Ok_inj in H. injection H as <- _ _. reflexivity.
Qed.

Lemma take_calm room d s d' : take ord fresh room d s = Ok d' ->
  Evidence.time (store (reader d')) = Evidence.time (store (reader d)).
Proof.
  destruct s as [input|i]; cbn [take]; intros H.
  - unfold read_text in H.
    destruct (parse_task ord fresh room (reader d) (leftover d) input) as [[[[st rest] v] b]| | |] eqn:E; cbn [bind] in H; try discriminate H.
    pose proof (parse_calm _ _ _ _ _ _ _ _ E) as C. destruct b; [discriminate H|]. destruct v as [v|].
    + destruct (sift (atoms_of v) 0 (length (handles (atoms st)) - length (handles (atoms (reader d)))) (atoms st)) as [[k w]| | |];
        cbn [bind] in H; try discriminate H. apply Ok_inj in H. subst d'. exact C.
    + apply Ok_inj in H. subst d'. exact C.
  - unfold release in H. destruct (nth_error (items d) i); [|discriminate H].
    destruct (sift [] (before (items d) i) (share k) (atoms (reader d))) as [[k' w]| | |]; cbn [bind] in H; try discriminate H.
    apply Ok_inj in H. subst d'. reflexivity.
Qed.

End Clock.

(* ---- printing ---- *)

Section Same.
Variables n1 n2 : Z -> option string.

Lemma unshadowed_all names l :
  (fix all l := match l with [] => True | x :: l' => unshadowed names x /\ all l' end) l -> Forall (unshadowed names) l.
Proof. induction l as [|x l IH]; [constructor|]. intros [A B]. constructor; auto. Qed.

Definition alike (t : term) : Prop :=
  unshadowed n1 t -> unshadowed n2 t -> (forall a, In a (addresses t) -> n1 (key_of a) = n2 (key_of a)) ->
  forall colored, interpret n1 colored t = interpret n2 colored t.

Lemma append_alike colored l : Forall alike l -> Forall (unshadowed n1) l -> Forall (unshadowed n2) l ->
  (forall a, In a (concat (map addresses l)) -> n1 (key_of a) = n2 (key_of a)) ->
  append_strs colored (interpret n1 colored) l = append_strs colored (interpret n2 colored) l.
Proof.
  intros F U1 U2 A.
  assert (E : forall x, In x l -> interpret n1 colored x = interpret n2 colored x).
  { intros x Hx. rewrite Forall_forall in F, U1, U2. apply (F x Hx); auto. intros a Ha. apply A. rewrite <- flat_map_concat_map. apply in_flat_map. eauto. }
  clear F U1 U2 A. induction l as [|x l IH]; [reflexivity|]. cbn [append_strs]. destruct l as [|y l].
  - apply E. left. reflexivity.
  - rewrite (E x) by (left; reflexivity). rewrite IH; [reflexivity|]. intros z Hz. apply E. right. exact Hz.
Qed.

Lemma alike_atom op a : alike (Atom op a).
Proof.
  intros _ _ A colored.
  assert (K : int32 (thash (Atom op a)) = key_of a) by (unfold key_of; rewrite !atom_hash; reflexivity).
  assert (E : forall n, interpret n colored (Atom op a) =
    match n (int32 (thash (Atom op a))) with
    | Some name => if colored then fg (if op then color_operation else color_term) name [] else Ok name
    | None => interpret_unknown colored op a
    end) by (intros n; reflexivity).
  rewrite !E, K, (A a) by (left; reflexivity). reflexivity.
Qed.

(* The text of a statement or a compound without a name of its own *)
Definition statement_text (colored : bool) (f : term -> res string) (c : copula) (s p : term) : res string :=
              if negb (is_operation (Stmt c s p)) then
                bind (f s) (fun str_subject =>
                bind (f p) (fun str_predicate =>
                if colored then
                  bind (fg color_angle "<" []) (fun str1 =>
                  bind (bind (fg color_term "{{}}" []) (fun f => format f [AText str_subject])) (fun str2 =>
                  bind (fg color_copula (cop_repr c) []) (fun str3 =>
                  bind (bind (fg color_term "{{}}" []) (fun f => format f [AText str_predicate])) (fun str4 =>
                  bind (fg color_angle ">" []) (fun str5 =>
                  format "{}{} {} {}{}" [AText str1; AText str2; AText str3; AText str4; AText str5])))))
                else format "<{} {} {}>" [AText str_subject; AText (cop_repr c); AText str_predicate]))
              else
                bind (f p) (fun str_op =>
                match s with
                | Comp _ l =>
                    if colored then
                      bind (fg color_parenthesis "(" []) (fun a =>
                      bind (fg color_seperator ", " []) (fun b =>
                      bind (append_strs colored f l) (fun m =>
                      bind (fg color_parenthesis ")" []) (fun z => Ok (a ++ str_op ++ b ++ m ++ z)%string))))
                    else
                      bind (append_strs colored f l) (fun m =>
                      Ok ("(" ++ str_op ++ ", " ++ m ++ ")")%string)
                | _ => UB
                end).

Definition compound_text (colored : bool) (f : term -> res string) (c : connector) (l : list term) : res string :=
              match l with
              | [] => UB
              | _ =>
                  bind (append_strs colored f l) (fun m =>
                  if colored then
                    match c with
                    | ExtensionalSet =>
                        bind (fg color_parenthesis "{{" []) (fun a =>
                        bind (fg color_parenthesis "}}" []) (fun z => Ok (a ++ m ++ z)%string))
                    | IntensionalSet =>
                        bind (fg color_parenthesis "[" []) (fun a =>
                        bind (fg color_parenthesis "]" []) (fun z => Ok (a ++ m ++ z)%string))
                    | _ =>
                        bind (fg color_parenthesis "(" []) (fun a =>
                        bind (fg color_connector (con_repr c) []) (fun b =>
                        bind (fg color_seperator ", " []) (fun sep =>
                        bind (fg color_parenthesis ")" []) (fun z => Ok (a ++ b ++ sep ++ m ++ z)%string))))
                    end
                  else
                    match c with
                    | ExtensionalSet => Ok ("{" ++ m ++ "}")%string
                    | IntensionalSet => Ok ("[" ++ m ++ "]")%string
                    | _ => Ok ("(" ++ con_repr c ++ ", " ++ m ++ ")")%string
                    end)
              end.

Lemma text_of_statement n colored c s p : n (key (Stmt c s p)) = None ->
  interpret n colored (Stmt c s p) = statement_text colored (interpret n colored) c s p.
Proof.
  unfold key. intros H.
  change (interpret n colored (Stmt c s p)) with
    (match n (int32 (thash (Stmt c s p))) with
     | Some name => Ok name
     | None => statement_text colored (interpret n colored) c s p
     end).
  rewrite H. reflexivity.
Qed.

Lemma text_of_compound n colored c l : n (key (Comp c l)) = None ->
  interpret n colored (Comp c l) = compound_text colored (interpret n colored) c l.
Proof.
  unfold key. intros H.
  change (interpret n colored (Comp c l)) with
    (match n (int32 (thash (Comp c l))) with
     | Some name => Ok name
     | None => compound_text colored (interpret n colored) c l
     end).
  rewrite H. reflexivity.
Qed.

Lemma alike_statement c s p : alike s -> match s with Comp _ l => Forall alike l | _ => True end -> alike p -> alike (Stmt c s p).
Proof.
  intros IHs IHl IHp U1 U2 A colored. cbn [unshadowed] in U1, U2. destruct U1 as (K1 & S1 & P1), U2 as (K2 & S2 & P2).
  cbn [addresses] in A.
  assert (Es : interpret n1 colored s = interpret n2 colored s) by (apply IHs; auto; intros a H; apply A, in_or_app; auto).
  assert (Ep : interpret n1 colored p = interpret n2 colored p) by (apply IHp; auto; intros a H; apply A, in_or_app; auto).
  rewrite (text_of_statement n1 colored c s p K1), (text_of_statement n2 colored c s p K2). clear K1 K2.
  unfold statement_text. rewrite Es, Ep. destruct (negb (is_operation (Stmt c s p))); [reflexivity|].
  destruct s as [| | | |c' l]; try reflexivity.
  rewrite (append_alike colored l); [reflexivity|exact IHl| | |].
  - apply unshadowed_all. exact (proj2 S1).
  - apply unshadowed_all. exact (proj2 S2).
  - intros a H. apply A, in_or_app. left. exact H.
Qed.

Lemma alike_compound c l : Forall alike l -> alike (Comp c l).
Proof.
  intros IHl U1 U2 A colored. cbn [unshadowed] in U1, U2. destruct U1 as (K1 & L1), U2 as (K2 & L2).
  rewrite (text_of_compound n1 colored c l K1), (text_of_compound n2 colored c l K2). clear K1 K2.
  unfold compound_text. rewrite (append_alike colored l); [reflexivity|exact IHl| | |].
  - apply unshadowed_all. exact L1.
  - apply unshadowed_all. exact L2.
  - intros a H. apply A. exact H.
Qed.

Lemma interpret_alike : forall t, alike t.
Proof.
  apply term_deep.
  - exact alike_atom.
  - intros k i _ _ _ colored. reflexivity.
  - intros n _ _ _ colored. reflexivity.
  - exact alike_statement.
  - exact alike_compound.
Qed.

End Same.

Section Kept.
Variable ord : list (option connector * list term) -> list (option connector * list term).
Hypothesis Horder : any_order ord.
Variable fresh : world -> Z.
Hypothesis Hfresh : thoughtful fresh.
Variable room : option nat.

Lemma onward_stays it d d' : reached ord fresh room d -> onward ord fresh room it d d' ->
  reached ord fresh room d' /\ In it (items d') /\
  Evidence.time (store (reader d')) = Evidence.time (store (reader d)) /\
  forall a, In a (held_by (item it)) -> exists n, names_at d (key_of a) = Some n /\ names_at d' (key_of a) = Some n.
Proof using Hfresh Horder.
  intros R O. induction O as [I|d1 s d2 i O (R1 & I1 & T1 & N1) U E Ni Ns].
  - split; [exact R|]. split; [exact I|]. split; [reflexivity|]. intros a Ha.
    pose proof (reached_tidy ord Horder fresh Hfresh room _ R) as [F Ow].
    destruct (owns_holds _ _ _ _ Ow I Ha) as (h & Hh & <-). exists (hname h).
    pose proof (InterningFacts3.s_handles _ (fit_sane _ F) _ Hh) as L.
    split; exact L.
  - split; [econstructor; eassumption|].
    destruct (names_stay ord Horder fresh Hfresh room d1 s d2 it (reached_tidy ord Horder fresh Hfresh room _ R1) U E) as (I2 & N2);
      [exists i; auto|].
    split; [exact I2|]. split; [rewrite (take_calm _ _ _ _ _ _ E); exact T1|].
    intros a Ha. destruct (N1 a Ha) as (n & A & B). destruct (N2 a Ha) as (m & C & D). exists n. split; [exact A|].
    unfold names_at, dictionary_of in *. rewrite C in B. congruence.
Qed.

(* C126 *)
Theorem text_stays it t d d' : reached ord fresh room d -> onward ord fresh room it d d' -> item it = VTask t ->
  unshadowed (names_at d) (content (sentence_of t)) -> unshadowed (names_at d') (content (sentence_of t)) ->
  forall colored,
    interpret_sentence (names_at d') colored (store (reader d')) (sentence_of t) =
    interpret_sentence (names_at d) colored (store (reader d)) (sentence_of t) /\
    interpret_task (names_at d') colored (store (reader d')) t = interpret_task (names_at d) colored (store (reader d)) t.
Proof using Hfresh Horder.
  intros R O E U1 U2. destruct (onward_stays it d d' R O) as (_ & _ & T & N).
  assert (X : forall colored, interpret_sentence (names_at d') colored (store (reader d')) (sentence_of t) =
    interpret_sentence (names_at d) colored (store (reader d)) (sentence_of t)).
  { intros colored.
    assert (X : interpret (names_at d') colored (content (sentence_of t)) = interpret (names_at d) colored (content (sentence_of t))).
    { apply interpret_alike; [exact U2|exact U1|]. intros a Ha. destruct (N a) as (n & A & B); [rewrite E; exact Ha|]. congruence. }
    assert (Y : Evidence.tense_of cfg_temporal_duration (store (reader d')) (stamp_of (sentence_of t)) =
                Evidence.tense_of cfg_temporal_duration (store (reader d)) (stamp_of (sentence_of t))).
    { unfold Evidence.tense_of. rewrite T. reflexivity. }
    unfold interpret_sentence. rewrite X, Y. reflexivity. }
  intros colored. split; [apply X|]. unfold interpret_task. rewrite X. reflexivity.
Qed.

End Kept.
